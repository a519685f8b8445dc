(* Property theorems C29, C35-C38 and C66: the messages of mdnsd_out.
   Vocabulary: SpecDaemon.v.  Model: Out.v, Api.v. *)
From Coq Require Import Sorted.
From Verif Require Import Base Hash Wire Rec Qry Out In Api SpecDaemon Scenario FactsOut FactsBig.

(* A service instance i of type s on host h: PTR, SRV and A records *)
Definition web : list (tv * op) :=
  [((1, 0), OShared (nm 115) QTYPE_PTR 60); ((1, 0), OSetHost 0 (nm 105));
   ((1, 0), OUnique (nm 105) QTYPE_SRV 60 (Some 7%nat)); ((1, 0), OSetSrv 1 0 0 80 (nm 104));
   ((1, 0), OUnique (nm 104) QTYPE_A 60 (Some 8%nat)); ((1, 0), OSetIp 2 [10; 0; 0; 1])].
Definition web_up : list (tv * op) := web ++ map (fun t => ((t, 0), OOut)) [1; 2; 3].   (* next is the first announcement *)
Definition web_calm : list (tv * op) := web ++ map (fun t => ((t, 0), OOut)) [1; 2; 3; 4; 6; 8; 10; 12; 14].
Definition visitor (h : addr) : tv * op := ((20, 0), OIn (asking 9 [mkquestion (nm 115) QTYPE_PTR 1] []) h).

(* ---- C29 ---- *)
(* Proved for the answer section of multicast responses.  False for unicast
   replies and for the additional section. *)
Theorem C29_partial : forall d e d' m n, reach d -> legal d e OOut -> uans (R d) = [] -> step d e OOut = Ok (d', RMsg m n) -> o_qr m = true ->
  exists L, answers_of m = map (as_answer (class d)) L /\ NoDup (map fst L) /\ forall r X, In (r, X) L -> record d r X /\ ~ waits d Probing r /\ ~ in_probing X.
Proof. exact verified_only. Qed.
Print Assumptions C29_partial.

Definition web_named : list (tv * op) := web_up ++ [((4, 0), OOut)].
Example C29_case : exists d' m n, legal (story 1400 web_named) (at_ (6, 0)) OOut /\ uans (R (story 1400 web_named)) = [] /\ step (story 1400 web_named) (at_ (6, 0)) OOut = Ok (d', RMsg m n) /\ o_qr m = true /\
  length (answers_of m) = 3%nat /\ exists X, record (story 1400 web_named) 1 X /\ unique X <> 0 /\ In (as_answer 1 (1%nat, X)) (answers_of m).
Proof.
  eexists. eexists. eexists. split; [apply legalb_ok; vm_compute; reflexivity|]. split; [vm_compute; reflexivity|]. split; [vm_compute; reflexivity|]. split; [vm_compute; reflexivity|]. split; [vm_compute; reflexivity|].
  eexists. split; [vm_compute; reflexivity|]. split; [vm_compute; discriminate|]. vm_compute. left. reflexivity.
Qed.

(* A query from a port other than 5353 is answered although the name is being
   probed. *)
Theorem C29_refuted_unicast : exists d e d' m n r X, reach d /\ legal d e OOut /\ step d e OOut = Ok (d', RMsg m n) /\ o_qr m = true /\
  record d r X /\ waits d Probing r /\ in_probing X /\ says m (shown SAn (class d) X).
Proof.
  exists (story 1400 (web ++ [((1, 0), OIn (asking 9 [mkquestion (nm 104) QTYPE_A 1] []) stranger)])), (at_ (1, 0)). eexists. eexists. eexists. exists 2%nat. eexists.
  split; [apply story_reach|]. split; [apply legalb_ok; vm_compute; reflexivity|]. split; [vm_compute; reflexivity|]. split; [vm_compute; reflexivity|]. split; [vm_compute; reflexivity|].
  split; [apply (waits_by [2; 1]%nat); [vm_compute; reflexivity|left; reflexivity]|]. split; [vm_compute; split; congruence|]. vm_compute. right. left. reflexivity.
Qed.
Print Assumptions C29_refuted_unicast.

(* A PTR record is answered with the SRV record of the instance it names, which
   is being probed. *)
Definition web_late : list (tv * op) :=
  [((1, 0), OShared (nm 115) QTYPE_PTR 60); ((1, 0), OSetHost 0 (nm 105))] ++ map (fun t => ((t, 0), OOut)) [2; 4; 6; 8; 10] ++
  [((20, 0), OUnique (nm 105) QTYPE_SRV 60 (Some 7%nat)); ((20, 0), OSetSrv 1 0 0 80 (nm 104)); visitor peer].
Theorem C29_refuted_additional : exists d e d' m n r X, reach d /\ legal d e OOut /\ uans (R d) = [] /\ step d e OOut = Ok (d', RMsg m n) /\ o_qr m = true /\
  record d r X /\ waits d Probing r /\ in_probing X /\ says m (shown SAr (class d + 32768) X).
Proof.
  exists (story 1400 web_late), (at_ (20, 500)). eexists. eexists. eexists. exists 1%nat. eexists.
  split; [apply story_reach|]. split; [apply legalb_ok; vm_compute; reflexivity|]. split; [vm_compute; reflexivity|]. split; [vm_compute; reflexivity|]. split; [vm_compute; reflexivity|]. split; [vm_compute; reflexivity|].
  split; [apply (waits_by [1%nat]); [vm_compute; reflexivity|left; reflexivity]|]. split; [vm_compute; split; congruence|]. vm_compute. right. left. reflexivity.
Qed.
Print Assumptions C29_refuted_additional.

(* ---- C35 ---- *)
(* A multicast response exceeds the frame size by at most 261 bytes. *)
Theorem C35_partial : forall d e d' m n, uans (R d) = [] -> sized_addresses d -> step d e OOut = Ok (d', RMsg m n) -> o_qr m = true -> packet_len (encode (o_calls m)) <= Z.max 12 (frame d + 261).
Proof. exact response_size. Qed.
Print Assumptions C35_partial.

Lemma sized_by : forall d n, (fresh (R d) <= n)%nat -> (forall r, hp (R d) r <> None -> (r < fresh (R d))%nat) ->
  forallb (fun r => match hp (R d) r with Some X => (zlen (a_ip (rr X)) =? 4) && (zlen (a_ip6 (rr X)) =? 16) | None => true end) (seq 0 n) = true -> sized_addresses d.
Proof.
  intros d n B F K r X EX. unfold record in EX. rewrite forallb_forall in K. specialize (K r). rewrite EX in K. assert (I : In r (seq 0 n)) by (apply in_seq; specialize (F r); rewrite EX in F; specialize (F ltac:(discriminate)); split; [apply Nat.le_0_l|eapply Nat.lt_le_trans; eassumption]).
  apply K in I. apply andb_true_iff in I as [I1 I2]. apply Z.eqb_eq in I1, I2. auto.
Qed.
Example C35_case : exists d' m n, uans (R (story 80 web_named)) = [] /\ sized_addresses (story 80 web_named) /\ step (story 80 web_named) (at_ (6, 0)) OOut = Ok (d', RMsg m n) /\ o_qr m = true /\
  packet_len (encode (o_calls m)) = 59 /\ n = 2.
Proof.
  eexists. eexists. eexists. split; [vm_compute; reflexivity|]. split; [|split; [vm_compute; reflexivity|split; [vm_compute; reflexivity|split; vm_compute; reflexivity]]].
  apply (sized_by _ 3).
  - vm_compute. apply le_n.
  - intros r N. pose proof (story_reach 80 web_named) as K. destruct (FactsCalls.reach_dinv _ K) as (qs & H & _). apply (RecInv.qk_fresh _ _ (RecSafe.ri_q _ _ H)). exact N.
  - vm_compute. reflexivity.
Qed.

(* The owner name is not counted. *)
Definition wordy (c : Z) : list Z := repeat c (Z.to_nat 60) ++ [46; 108; 111; 99; 97; 108; 46].
Theorem C35_refuted_response : exists d e d' m n, reach d /\ legal d e OOut /\ uans (R d) = [] /\ sized_addresses d /\ step d e OOut = Ok (d', RMsg m n) /\ o_qr m = true /\ frame d < packet_len (encode (o_calls m)).
Proof.
  exists (story 64 [((1, 0), OShared (wordy 97) QTYPE_A 60); ((1, 0), OSetIp 0 [10; 0; 0; 1])]), (at_ (2, 0)). eexists. eexists. eexists.
  split; [apply story_reach|]. split; [apply legalb_ok; vm_compute; reflexivity|]. split; [vm_compute; reflexivity|]. split; [|split; [vm_compute; reflexivity|split; vm_compute; reflexivity]].
  apply (sized_by _ 1); [vm_compute; apply le_n| |vm_compute; reflexivity]. intros r N.
  destruct (FactsCalls.reach_dinv _ (story_reach 64 [((1, 0), OShared (wordy 97) QTYPE_A 60); ((1, 0), OSetIp 0 [10; 0; 0; 1])])) as (qs & H & _). apply (RecInv.qk_fresh _ _ (RecSafe.ri_q _ _ H)). exact N.
Qed.
Print Assumptions C35_refuted_response.

(* Questions are not counted at all. *)
Theorem C35_refuted_query : exists d e d' m n, reach d /\ legal d e OOut /\ uans (R d) = [] /\ step d e OOut = Ok (d', RMsg m n) /\ o_qr m = false /\ frame d + 261 < packet_len (encode (o_calls m)).
Proof.
  exists (story 64 (map (fun c => ((1, 0), OQuery (wordy c) QTYPE_A (Some 0%nat))) [97; 98; 99; 100; 101])), (at_ (2, 0)). eexists. eexists. eexists.
  split; [apply story_reach|]. split; [apply legalb_ok; vm_compute; reflexivity|]. split; [vm_compute; reflexivity|]. split; [vm_compute; reflexivity|split; vm_compute; reflexivity].
Qed.
Print Assumptions C35_refuted_query.

(* ---- C66 ---- *)
(* The buffer of struct message has MAX_PACKET_LEN bytes; e_ovf: some byte was
   stored past it. *)
Theorem C66_partial : forall d e d' m n, uans (R d) = [] -> sized_addresses d -> frame d + 261 <= MAX_PACKET_LEN -> step d e OOut = Ok (d', RMsg m n) -> o_qr m = true -> e_ovf (encode (o_calls m)) = false.
Proof. exact response_fits. Qed.
Print Assumptions C66_partial.

Example C66_case : frame (story 80 web_named) + 261 <= MAX_PACKET_LEN.
Proof. vm_compute. discriminate. Qed.

(* A program with many queries *)
Theorem C66_refuted : exists d e d' m n, reach d /\ legal d e OOut /\ step d e OOut = Ok (d', RMsg m n) /\ e_ovf (encode (o_calls m)) = true.
Proof. exact overflowing. Qed.
Print Assumptions C66_refuted.

(* ---- C36 ---- *)
(* o_qr: both QR and AA *)
Theorem C36_sections : forall d e d' m n, reach d -> legal d e OOut -> step d e OOut = Ok (d', RMsg m n) ->
  Sorted le (map section_of (items (o_calls m))) /\
  (o_qr m = true -> uans (R d) = [] -> forall i, says m i -> section_of i = 1%nat \/ section_of i = 3%nat) /\
  (o_qr m = true -> uans (R d) <> [] -> forall i, says m i -> section_of i <> 2%nat) /\
  (o_qr m = false -> forall i, says m i -> section_of i <> 3%nat).
Proof. exact message_sections. Qed.
Print Assumptions C36_sections.

Example C36_case : map (fun x => match x with RMsg m n => (o_qr m, map section_of (items (o_calls m))) | _ => (false, []) end)
  (skipn 14 (replies 1400 (web_calm ++ [visitor peer; ((20, 500), OOut); visitor stranger; ((20, 500), OOut)] ++ [((21, 0), OUnique (nm 97) QTYPE_A 60 (Some 1%nat)); ((21, 0), OOut); ((21, 0), OOut)]))) =
  [(false, []); (false, []); (true, [1; 3; 3]%nat); (false, []); (true, [0; 1; 3; 3]%nat); (false, []); (true, [1; 3; 3]%nat); (false, [0; 2]%nat)].
Proof. vm_compute. reflexivity. Qed.

(* ---- C37 ---- *)
Theorem C37_flush : forall t cls frm l d e d' m n, 0 <= fst t -> history (mdnsd_new t cls frm) l d -> legal d e OOut -> uans (R d) = [] -> step d e OOut = Ok (d', RMsg m n) -> o_qr m = true ->
  exists L, Forall2 (fun i p => record d (fst p) (snd p) /\ exists sec, (made_unique l (fst p) -> i = shown sec (class d + 32768) (snd p)) /\ (~ made_unique l (fst p) -> i = shown sec (class d) (snd p))) (items (o_calls m)) L.
Proof. exact flushes. Qed.
Print Assumptions C37_flush.

Theorem C37_others : forall d e d' m n i, reach d -> legal d e OOut -> step d e OOut = Ok (d', RMsg m n) -> o_qr m = false \/ uans (R d) <> [] -> says m i -> (section_of i <= 2)%nat -> class_of i = class d.
Proof. exact flushes_not. Qed.
Print Assumptions C37_others.

Example C37_case : history (mdnsd_new (1, 0) 1 1400) (annals 1400 web_named) (story 1400 web_named) /\
  made_unique (annals 1400 web_named) 1 /\ made_unique (annals 1400 web_named) 2 /\ ~ made_unique (annals 1400 web_named) 0 /\
  exists d' m n, step (story 1400 web_named) (at_ (6, 0)) OOut = Ok (d', RMsg m n) /\ o_qr m = true /\ map class_of (items (o_calls m)) = [32769; 32769; 1].
Proof.
  split; [apply annals_history|]. split; [apply made_unique_by; vm_compute; reflexivity|]. split; [apply made_unique_by; vm_compute; reflexivity|].
  split; [rewrite <- made_unique_by; vm_compute; discriminate|]. eexists. eexists. eexists. split; [vm_compute; reflexivity|]. split; vm_compute; reflexivity.
Qed.

(* ---- C38 ---- *)
Theorem C38_multicast : forall d e d' m n, reach d -> legal d e OOut -> uans (R d) = [] -> step d e OOut = Ok (d', RMsg m n) -> o_qr m = true ->
  exists L E, items (o_calls m) = map (as_answer (class d)) L ++ map (as_extra (class d)) E /\
    (forall r X, In (r, X) L -> record d r X) /\ (forall r X, In (r, X) E -> record d' r X /\ published d' r /\ exists a A, In (a, A) L /\ goes_with d' A X) /\
    ((length L + length E <= 64)%nat -> NoDup (map fst (L ++ E))).
Proof. exact additional_relevant. Qed.
Print Assumptions C38_multicast.

Theorem C38_unicast : forall d e d' m n u us, reach d -> legal d e OOut -> uans (R d) = u :: us -> step d e OOut = Ok (d', RMsg m n) ->
  exists X E, record d (u_r u) X /\ items (o_calls m) = IQuestion (a_name (rr X)) (a_type (rr X)) (class d) :: shown SAn (class d) X :: map (as_extra (class d)) E /\
    (forall r Y, In (r, Y) E -> record d r Y /\ published d r /\ goes_with d X Y) /\ ((length E < 64)%nat -> NoDup (u_r u :: map fst E)).
Proof. exact unicast_relevant. Qed.
Print Assumptions C38_unicast.

Example C38_case : (exists d' m n, step (story 1400 (web_calm ++ [visitor peer])) (at_ (20, 500)) OOut = Ok (d', RMsg m n) /\ o_qr m = true /\ uans (R (story 1400 (web_calm ++ [visitor peer]))) = [] /\
    map (fun i => match i with IRecord s n ty _ _ _ => (section_of i, ty) | _ => (0%nat, 0) end) (items (o_calls m)) = [(1%nat, QTYPE_PTR); (3%nat, QTYPE_SRV); (3%nat, QTYPE_A)]) /\
  exists u d' m n, uans (R (story 1400 (web_calm ++ [visitor stranger]))) = [u] /\ step (story 1400 (web_calm ++ [visitor stranger])) (at_ (20, 500)) OOut = Ok (d', RMsg m n) /\
    length (items (o_calls m)) = 4%nat.
Proof.
  split.
  - eexists. eexists. eexists. split; [vm_compute; reflexivity|]. split; [vm_compute; reflexivity|]. split; vm_compute; reflexivity.
  - eexists. eexists. eexists. eexists. split; [vm_compute; reflexivity|]. split; vm_compute; reflexivity.
Qed.
