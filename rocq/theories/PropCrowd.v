(* Property theorems C112: how much the cache holds.  Vocabulary: SpecDaemon.v, SpecCache.v, SpecCrowd.v. *)
From Verif Require Import Base Hash Wire Rec Qry Out In Api SpecDaemon SpecCache SpecCrowd Scenario FactsCrowd PropCache.

(* ---- C112 ---- *)
(* Missing: a bound that does not depend on how much is received, there is none
   (C112_refuted).  The cache holds at most as many records as answers were
   received; *)
Theorem C112_partial : forall t cls frm l d, 0 <= fst t -> history (mdnsd_new t cls frm) l d -> (cache_size d <= answers_received l)%nat.
Proof. exact cache_bounded. Qed.
Print Assumptions C112_partial.
(* and after the daily sweep at most as many as those whose time is not over. *)
Theorem C112_fresh_partial : forall t cls frm l d e d' m, 0 <= fst t -> history (mdnsd_new t cls frm) l d -> legal d e OOut -> is_shutdown d = false -> expireall d < fst (e_now e) ->
  step d e OOut = Ok (d', RMsg m 0) -> (cache_size d' <= fresh_received (fst (e_now e)) l)%nat.
Proof. exact cache_fresh. Qed.
Print Assumptions C112_fresh_partial.

(* One host fills it within one second with any number of addresses of one name *)
Theorem C112_refuted : forall n, Z.of_nat n <= 4294967296 -> exists l d, history (mdnsd_new (1, 0) 1 1400) l d /\ only_from (1, 0) peer l /\ length l = n /\ cache_size d = n /\
  forall ev, In ev l -> exists ip, ev_call ev = OIn (telling [rr_a (nm 97) 1 3600 ip]) peer /\ bytes ip /\ length ip = 4%nat.
Proof. exact crowded. Qed.
Print Assumptions C112_refuted.

(* Six answers about three records; a sweep after which one of four is left *)
Definition six_answers : list (tv * op) := hoard ++ [((50, 0), OIn (telling [rr_a (nm 98) 1 300000 [10; 0; 0; 7]]) peer)].
Example C112_case : history (mdnsd_new (1, 0) 1 1400) (annals 1400 six_answers) (story 1400 six_answers) /\ answers_received (annals 1400 six_answers) = 7%nat /\ cache_size (story 1400 six_answers) = 4%nat /\
  match step (story 1400 six_answers) (at_ (86402, 0)) OOut with Ok (d', RMsg _ 0) => cache_size d' = 1%nat | _ => False end /\ fresh_received 86402 (annals 1400 six_answers) = 1%nat.
Proof.
  split; [apply annals_history|]. do 3 (split; [vm_compute; reflexivity|]). vm_compute. reflexivity.
Qed.
