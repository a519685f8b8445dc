(* Property theorems C17-C20 and C54: memory safety of the daemon.
   Vocabulary: SpecDaemon.v.  Model: Rec.v, Qry.v, Out.v, In.v, Api.v; reach
   and legal, the histories and the contract of the calls, are in Api.v. *)
From Verif Require Import Base SpecDns Hash Wire WireSafe Rec Qry Out In Api SpecDaemon Scenario FactsSafe.

(* ---- C17 ---- *)
(* Ok: no freed record or query is used, no NULL pointer followed and every
   loop ends. *)
Theorem C17_calls : forall d e o, reach d -> legal d e o -> exists d' x, step d e o = Ok (d', x) /\ reach d'.
Proof. exact calls_safe. Qed.
Print Assumptions C17_calls.

(* Whatever bytes the buffer holds: a message that parses is within the
   contract of mdnsd_in. *)
Theorem C17_packets : forall d e b psz m s p from, reach d -> 0 <= fst (e_now e) -> bytebuf b -> message_parse b psz = Ok (m, s, p) ->
  exists d' n, step d e (OIn m from) = Ok (d', RInt n) /\ reach d'.
Proof. exact packets_safe. Qed.
Print Assumptions C17_packets.

(* A busy history: a unique record is probed while a question for it, a query
   and an answer are processed, and is withdrawn. *)
Definition busy : list (tv * op) :=
  [((1, 0), OUnique (nm 97) QTYPE_A 100 (Some 0%nat)); ((1, 0), OSetIp 0 [10; 0; 0; 1]); ((1, 0), OShared (nm 98) QTYPE_TXT 60);
   ((1, 0), OSetRaw 1 [1; 97]); ((1, 0), OQuery (nm 99) QTYPE_A (Some 1%nat)); ((2, 0), OOut); ((3, 0), OOut); ((4, 0), OOut);
   ((4, 0), OIn (telling [rr_a (nm 99) 1 100 [10; 0; 0; 5]]) peer); ((5, 0), OOut); ((7, 0), OOut); ((9, 0), OOut); ((11, 0), OOut); ((13, 0), OOut);
   ((14, 0), OIn (asking 3 [mkquestion (nm 98) QTYPE_ANY 1; mkquestion (nm 97) QTYPE_A 1] []) stranger); ((15, 0), ODone 0)].
Example C17_case : length (replies 1400 busy) = 16%nat /\ a_now (R (story 1400 busy)) <> None /\ told (Q (story 1400 busy)) <> [] /\
  legal (story 1400 busy) (at_ (16, 0)) OOut /\ exists d' x, step (story 1400 busy) (at_ (16, 0)) OOut = Ok (d', x) /\ reach d'.
Proof.
  split; [vm_compute; reflexivity|]. split; [vm_compute; discriminate|]. split; [vm_compute; discriminate|].
  assert (L : legal (story 1400 busy) (at_ (16, 0)) OOut) by (apply legalb_ok; vm_compute; reflexivity).
  split; [exact L|]. apply C17_calls; [apply story_reach|exact L].
Qed.

(* ---- C18 ---- *)
Theorem C18_queues : forall d, reach d -> exists l : queue -> list nat,
  (forall k, queue_is d k (l k)) /\ (forall k, NoDup (l k)) /\ (forall j k r, In r (l j) -> In r (l k) -> j = k) /\
  (forall k r, In r (l k) -> published d r).
Proof. exact queues_ok. Qed.
Print Assumptions C18_queues.

(* One record is queued at once, one with a delay, two are being announced. *)
Definition crowded : list (tv * op) :=
  [((1, 0), OUnique (nm 97) QTYPE_TXT 100 (Some 0%nat)); ((1, 0), OSetRaw 0 [1]); ((2, 0), OOut); ((3, 0), OOut); ((4, 0), OOut); ((5, 0), OOut); ((7, 0), OOut);
   ((9, 0), OOut); ((11, 0), OOut); ((13, 0), OOut); ((13, 0), OShared (nm 98) QTYPE_TXT 60); ((13, 0), OSetRaw 1 [2]); ((15, 0), OOut); ((17, 0), OOut); ((19, 0), OOut); ((21, 0), OOut); ((23, 0), OOut);
   ((24, 0), OShared (nm 99) QTYPE_TXT 60); ((24, 0), OSetRaw 2 [3]); ((24, 0), OShared (nm 100) QTYPE_TXT 60); ((24, 0), OSetRaw 3 [3]);
   ((25, 0), OIn (asking 0 [mkquestion (nm 97) QTYPE_TXT 1; mkquestion (nm 98) QTYPE_TXT 1] []) peer)].
Example C18_case : map (fun k => head (R (story 1400 crowded)) k) [Now; Pause; Publish; Probing] = [Some 0%nat; Some 1%nat; Some 3%nat; None].
Proof. vm_compute. reflexivity. Qed.

(* ---- C19 ---- *)
(* Safe if nothing waits to be probed, announced or answered later.  Missing:
   other states, where it is false. *)
Theorem C19_partial : forall d e, reach d -> 0 <= fst (e_now e) ->
  (forall r, ~ waits d Probing r) -> (forall r, ~ waits d Publish r) -> (forall r, ~ waits d Pause r) ->
  exists d', step d e OShutdown = Ok (d', RUnit) /\ reach d'.
Proof. exact shutdown_safe. Qed.
Print Assumptions C19_partial.

(* Withdrawing the addresses is safe if no address record waits.  Missing: other
   states, where it is false. *)
Theorem C19_address_partial : forall d e a, reach d -> 0 <= fst (e_now e) ->
  ((forall r X, record d r X -> a_type (rr X) = QTYPE_A -> idle d r) -> exists d', step d e (OSetAddress a) = Ok (d', RUnit) /\ reach d') /\
  ((forall r X, record d r X -> a_type (rr X) = QTYPE_AAAA -> idle d r) -> exists d', step d e (OSetAddress6 a) = Ok (d', RUnit) /\ reach d').
Proof. exact address_safe. Qed.
Print Assumptions C19_address_partial.
(* An address was announced; another record is being announced. *)
Definition moving : list (tv * op) :=
  [((1, 0), OSetAddress [10; 0; 0; 1]); ((1, 0), OShared (nm 97) QTYPE_A 100); ((1, 0), OSetIp 0 [10; 0; 0; 1]); ((1, 0), OOut); ((3, 0), OOut); ((5, 0), OOut); ((7, 0), OOut); ((9, 0), OOut);
   ((20, 0), OShared (nm 98) QTYPE_TXT 60); ((20, 0), OSetRaw 1 [1; 2; 3])].
Example C19_case_address : reach (story 200 moving) /\ (forall r X, record (story 200 moving) r X -> a_type (rr X) = QTYPE_A -> idle (story 200 moving) r) /\ (exists X, record (story 200 moving) 0 X /\ a_type (rr X) = QTYPE_A) /\
  waits (story 200 moving) Publish 1 /\ match step (story 200 moving) (at_ (20, 0)) (OSetAddress [0; 0; 0; 0]) with Ok (d', _) => waits d' Now 0 /\ waits d' Publish 1 | _ => False end.
Proof.
  assert (L : forall d q r, head (R d) q = Some r -> next_of d r = Some None -> queue_is d q [r]) by (intros d q r A B; unfold queue_is; rewrite A; exact (linked_node _ _ _ _ B (linked_end _))).
  assert (P : head (R (story 200 moving)) Publish = Some 1%nat /\ next_of (story 200 moving) 1%nat = Some None) by (split; vm_compute; reflexivity).
  assert (E : head (R (story 200 moving)) Now = None /\ head (R (story 200 moving)) Pause = None /\ head (R (story 200 moving)) Probing = None) by (split; [|split]; vm_compute; reflexivity).
  assert (T : match hp (R (story 200 moving)) 1%nat with Some X => a_type (rr X) =? QTYPE_A | None => false end = false) by (vm_compute; reflexivity).
  assert (T0 : match hp (R (story 200 moving)) 0%nat with Some X => a_type (rr X) =? QTYPE_A | None => false end = true) by (vm_compute; reflexivity).
  assert (B : match step (story 200 moving) (at_ (20, 0)) (OSetAddress [0; 0; 0; 0]) with Ok (d', _) => head (R d') Publish = Some 1%nat /\ next_of d' 1%nat = Some None /\ head (R d') Now = Some 0%nat /\ next_of d' 0%nat = Some None | _ => False end) by (vm_compute; auto).
  split; [apply story_reach|]. revert P E T T0 B. generalize (story 200 moving). intros d [P1 P2] (E1 & E2 & E3) T T0 B. split; [|split; [|split]].
  - intros r X EX Ty q (l & A & I). unfold queue_is in A.
    assert (V : forall k, head (R d) k = None -> linked (next_of d) (head (R d) k) l -> False) by (intros k Ek A'; rewrite Ek in A'; inversion A'; subst; destruct I).
    destruct q; [exact (V Probing E3 A)|exact (V Now E1 A)|exact (V Pause E2 A)|].
    rewrite P1 in A. inversion A as [|x p l' N2 A2]; subst. rewrite P2 in N2. injection N2 as <-. inversion A2; subst. destruct I as [<-|[]]. unfold record in EX. rewrite EX, Ty in T. discriminate T.
  - unfold record. destruct (hp (R d) 0%nat) as [X|]; [|discriminate T0]. exists X. split; [reflexivity|]. apply Z.eqb_eq. exact T0.
  - exists [1%nat]. split; [apply L; assumption|left; reflexivity].
  - destruct (step d (at_ (20, 0)) (OSetAddress [0; 0; 0; 0])) as [[d' x]| | |]; try contradiction. destruct B as (B1 & B2 & B3 & B4). split; [exists [0%nat]|exists [1%nat]]; (split; [apply L; assumption|left; reflexivity]).
Qed.

(* Three records being announced; the frame is too small for all. *)
Definition three : list (tv * op) :=
  [((1, 0), OShared (nm 97) QTYPE_TXT 100); ((1, 0), OShared (nm 98) QTYPE_TXT 100); ((1, 0), OShared (nm 99) QTYPE_TXT 100);
   ((1, 0), OSetRaw 1 (repeat 1 80)); ((1, 0), OSetRaw 0 (repeat 2 140)); ((1, 0), OSetRaw 2 (repeat 3 10))].
(* Once they have been announced shutdown is safe. *)
Definition three_calm : list (tv * op) := three ++ map (fun t => ((t, 0), OOut)) [2; 4; 6; 8; 10; 12; 14; 16; 18; 20; 22; 24].
Example C19_case : (exists d', step (story 200 three_calm) (at_ (30, 0)) OShutdown = Ok (d', RUnit) /\ a_now (R d') <> None /\ reach d') /\
  (forall r, ~ waits (story 200 three_calm) Publish r).
Proof.
  assert (E : forall k r, ~ waits (story 200 three_calm) k r).
  { intros k r (l & A & B). unfold queue_is in A. replace (head (R (story 200 three_calm)) k) with (@None nat) in A by (destruct k; vm_compute; reflexivity). inversion A; subst; destruct B. }
  split; [|apply E]. destruct (C19_partial (story 200 three_calm) (at_ (30, 0)) (story_reach _ _) ltac:(cbn [at_ e_now fst]; lia) (E _) (E _) (E _)) as (d' & S & K).
  exists d'. split; [exact S|]. split; [|exact K]. assert (X : exists x, step (story 200 three_calm) (at_ (30, 0)) OShutdown = Ok x /\ a_now (R (fst x)) <> None)
    by (eexists; split; [vm_compute; reflexivity|discriminate]). destruct X as (x & S' & X). rewrite S in S'. injection S' as <-. exact X.
Qed.

(* Run the calls whether they are within the contract or not. *)
Definition run (d : daemon) (l : list (tv * op)) : res daemon :=
  fold_left (fun r o => d <- r;; '(d, _) <- step d (at_ (fst o)) (snd o);; Ok d) l (Ok d).

Theorem C19_refuted_shutdown : exists d, reach d /\ run d [((2, 0), OShutdown); ((2, 0), OOut); ((3, 0), OOut)] = UB UseAfterFree.
Proof. exists (story 200 three). split; [apply story_reach|vm_compute; reflexivity]. Qed.
Print Assumptions C19_refuted_shutdown.

(* Two unique addresses, verified and announced, were just asked for. *)
Definition wanted : list (tv * op) :=
  [((1, 0), OSetAddress [10; 0; 0; 1]); ((1, 0), OUnique (nm 97) QTYPE_A 100 (Some 0%nat)); ((1, 0), OSetIp 0 [10; 0; 0; 1]);
   ((1, 0), OUnique (nm 99) QTYPE_A 100 (Some 0%nat)); ((1, 0), OSetIp 1 [10; 0; 0; 1]);
   ((1, 0), OOut); ((2, 0), OOut); ((3, 0), OOut); ((4, 0), OOut); ((6, 0), OOut); ((8, 0), OOut); ((10, 0), OOut); ((12, 0), OOut);
   ((14, 0), OIn (asking 0 [mkquestion (nm 99) 1 1; mkquestion (nm 97) 1 1] []) peer)].
Theorem C19_refuted_address : exists d, reach d /\ run d [((15, 0), OSetAddress [0; 0; 0; 0]); ((16, 0), OOut)] = UB UseAfterFree.
Proof. exists (story 1400 wanted). split; [apply story_reach|vm_compute; reflexivity]. Qed.
Print Assumptions C19_refuted_address.

(* ---- C20 ---- *)
(* The callbacks of a call are the entries it adds to the log; the j-th callback
   ever made returns -1 iff e_cb e j.  A query whose callback returned -1 is
   not registered any more; that the call is safe is C17.  Missing: mdnsd_out
   with a callback that returns -1 when a query that was asked three times is
   due (excluded by legal), where it is false. *)
Theorem C20_partial : forall d e o d' x, reach d -> legal d e o -> step d e o = Ok (d', x) ->
  exists T, told (Q d') = told (Q d) ++ T /\
    forall i k a, nth_error T i = Some (k, a) -> e_cb e (length (told (Q d)) + i)%nat = true ->
      exists q y, In q (qlist (Q d)) /\ qh (Q d) q = Some y /\ q_cb y = k /\ q_nm y = a_name a /\ (q_ty y = a_type a \/ q_ty y = QTYPE_ANY) /\
        ~ In q (qlist (Q d')).
Proof. exact callbacks_unregister. Qed.
Print Assumptions C20_partial.

(* Unregistered by its first answer *)
Definition curious : list (tv * op) := [((1, 0), OQuery (nm 97) QTYPE_A (Some 7%nat))].
Example C20_case :
  let e := mkenv (2, 0) 0 None (fun _ => true) in let o := OIn (telling [rr_a (nm 97) 1 100 [10; 0; 0; 5]]) peer in
  legal (story 1400 curious) e o /\
  exists d' x, step (story 1400 curious) e o = Ok (d', x) /\ length (qlist (Q (story 1400 curious))) = 1%nat /\ qlist (Q d') = [] /\ map fst (told (Q d')) = [7%nat].
Proof.
  intros e o. split.
  - split; [cbn [e e_now fst]; lia|]. apply Forall_cons; [apply wf_resourceb_ok; vm_compute; reflexivity|apply Forall_nil].
  - eexists. eexists. split; [vm_compute; reflexivity|]. split; [vm_compute; reflexivity|]. split; vm_compute; reflexivity.
Qed.

(* Asked three times, with a cached answer that expires just then. *)
Definition expiring : list (tv * op) :=
  [((1, 0), OQuery (nm 97) QTYPE_A (Some 7%nat)); ((2, 0), OIn (telling [rr_a (nm 97) 1 4 [10; 0; 0; 5]]) peer);
   ((3, 0), OOut); ((4, 0), OOut); ((6, 0), OOut)].
Theorem C20_refuted : exists d e, reach d /\ 0 <= fst (e_now e) /\ step d e OOut = UB UseAfterFree.
Proof.
  exists (story 1400 expiring), (mkenv (13, 0) 0 None (fun _ => true)). split; [apply story_reach|]. split; [cbn [e_now fst]; lia|vm_compute; reflexivity].
Qed.
Print Assumptions C20_refuted.

(* ---- C54 ---- *)
Theorem C54_clear : forall d e, reach d -> exists d', step d e OClear = Ok (d', RUnit) /\
  (forall r, ~ published d' r) /\ (forall k r, ~ waits d' k r) /\ uans (R d') = [] /\ (forall r X, ~ record d' r X).
Proof. exact clear_all_gone. Qed.
Print Assumptions C54_clear.

Example C54_case : (exists r, published (story 1400 busy) r) /\ uans (R (story 1400 busy)) <> [] /\ (exists r, waits (story 1400 busy) Now r) /\
  exists d', step (story 1400 busy) (at_ (16, 0)) OClear = Ok (d', RUnit) /\ (forall r, ~ published d' r) /\ uans (R d') = [].
Proof.
  split; [exists 0%nat; vm_compute; auto|]. split; [vm_compute; discriminate|]. split.
  - exists 0%nat, [0%nat]. split; [|left; reflexivity]. unfold queue_is. replace (head (R (story 1400 busy)) Now) with (Some 0%nat) by (vm_compute; reflexivity).
    apply (linked_node _ _ None); [vm_compute; reflexivity|constructor].
  - destruct (C54_clear (story 1400 busy) (at_ (16, 0)) (story_reach _ _)) as (d' & E & A & _ & B & _). eauto.
Qed.
