(* Property theorem C67: the time between probes and between announcements.
   Vocabulary: SpecDaemon.v, SpecLife.v, SpecSpace.v.  Model: Rec.v, Out.v, Api.v. *)
From Verif Require Import Base Hash Wire Rec Qry Out In Api SpecDaemon SpecLife SpecSpace Scenario FactsLife FactsSpace PropLife.

(* ---- C67 ---- *)
(* Two messages with probes, for whatever records, are at least 250 ms apart if
   no new unique record is made in between. *)
Theorem C67_probes : forall d0 l1 ev1 l2 ev2 l3 d, reach d0 -> history d0 (l1 ++ ev1 :: l2 ++ ev2 :: l3) d -> sends_probe ev1 -> sends_probe ev2 ->
  (forall ev, In ev l2 -> ~ makes_name (ev_call ev)) ->
  micros (e_now (ev_env ev1)) + 250000 <= micros (e_now (ev_env ev2)).
Proof. exact probes_apart. Qed.
Print Assumptions C67_probes.

(* Two messages with announcements are at least two seconds apart if in between
   the program sets no data and withdraws nothing, and no datagram arrives. *)
Theorem C67_announcements_partial : forall d0 l1 ev1 l2 ev2 l3 d r1 r2, reach d0 -> history d0 (l1 ++ ev1 :: l2 ++ ev2 :: l3) d -> announces r1 ev1 -> announces r2 ev2 ->
  singular (ev_before ev1) r1 -> singular (ev_before ev2) r2 -> (forall ev, In ev l2 -> quiet (ev_call ev)) ->
  micros (e_now (ev_env ev1)) + 2000000 <= micros (e_now (ev_env ev2)).
Proof. exact announcements_apart. Qed.
Print Assumptions C67_announcements_partial.

Lemma split_two : forall (l : list event) i j x, (i < length l)%nat -> (j < length (skipn (S i) l))%nat ->
  l = firstn i l ++ nth i l x :: firstn j (skipn (S i) l) ++ nth j (skipn (S i) l) x :: skipn (S j) (skipn (S i) l).
Proof. intros l i j x Hi Hj. rewrite <- (split_at (skipn (S i) l) j x Hj). apply split_at. exact Hi. Qed.
Lemma second_in : forall (l : list event) i j x, (j < length (skipn (S i) l))%nat -> In (nth j (skipn (S i) l) x) l.
Proof. intros l i j x Hj. rewrite <- (firstn_skipn (S i) l) at 2. apply in_or_app. right. apply nth_In. exact Hj. Qed.

(* A host name: the call of mdnsd_out in between sends nothing. *)
Definition host_hasty : list (tv * op) := ((1, 0), OSetIp 1 [10; 0; 0; 1]) :: map (fun t => ((1, t), OOut)) [0; 100000; 250000].
Example C67_case : exists l1 ev1 l2 ev2 l3, recorded host_made host_hasty = l1 ++ ev1 :: l2 ++ ev2 :: l3 /\ l2 <> [] /\
  sends_probe ev1 /\ sends_probe ev2 /\ (forall ev, In ev l2 -> ~ makes_name (ev_call ev)).
Proof.
  set (x := mkevent host_made (at_ (1, 0)) OOut RUnit host_made). set (l := recorded host_made host_hasty).
  assert (S1 : sends_probe (nth 1 l x)).
  { exists 1%nat. eexists. eexists. eexists. split; [vm_compute; reflexivity|]. split; [vm_compute; reflexivity|]. split; [vm_compute; reflexivity|]. split; [vm_compute; reflexivity|]. split; [vm_compute; left; reflexivity|].
    vm_compute. right. left. reflexivity. }
  assert (S2 : sends_probe (nth 1 (skipn 2 l) x)).
  { exists 1%nat. eexists. eexists. eexists. split; [vm_compute; reflexivity|]. split; [vm_compute; reflexivity|]. split; [vm_compute; reflexivity|]. split; [vm_compute; reflexivity|]. split; [vm_compute; left; reflexivity|].
    vm_compute. right. left. reflexivity. }
  assert (A1 : (1 < length l)%nat) by (vm_compute; repeat constructor). assert (A2 : (1 < length (skipn 2 l))%nat) by (vm_compute; repeat constructor).
  assert (B : forallb (fun ev => match ev_call ev with OUnique _ _ _ _ => false | _ => true end) (firstn 1 (skipn 2 l)) = true) by (vm_compute; reflexivity).
  assert (Z : (length (firstn 1 (skipn 2 l)) = 1)%nat) by (vm_compute; reflexivity).
  exists (firstn 1 l), (nth 1 l x), (firstn 1 (skipn 2 l)), (nth 1 (skipn 2 l) x), (skipn 2 (skipn 2 l)).
  split; [apply (split_two l 1 1 x A1 A2)|]. split; [intros E; rewrite E in Z; discriminate Z|]. split; [exact S1|]. split; [exact S2|].
  intros ev I. rewrite forallb_forall in B. specialize (B ev I). clear - B. unfold makes_name. destruct (ev_call ev); try discriminate B; auto.
Qed.

(* A shared record: announced at 1 s, not at 2 s, again at 3 s *)
Definition text_slow : list (tv * op) := map (fun t => ((t, 0), OOut)) [1; 2; 3].
Example C67_case_announcements : exists l1 ev1 l2 ev2 l3, recorded text_set text_slow = l1 ++ ev1 :: l2 ++ ev2 :: l3 /\ l2 <> [] /\
  announces 0 ev1 /\ announces 0 ev2 /\ singular (ev_before ev1) 0 /\ singular (ev_before ev2) 0 /\ (forall ev, In ev l2 -> quiet (ev_call ev)).
Proof.
  set (x := mkevent text_set (at_ (1, 0)) OOut RUnit text_set). set (l := recorded text_set text_slow).
  assert (S1 : announces 0 (nth 0 l x)).
  { split; [|apply (waits_by [0%nat]); [vm_compute; reflexivity|left; reflexivity]]. eexists. eexists. eexists. split; [vm_compute; reflexivity|]. split; [vm_compute; reflexivity|]. split; [vm_compute; reflexivity|]. split; [vm_compute; reflexivity|]. split; [vm_compute; reflexivity|].
    vm_compute. left. reflexivity. }
  assert (S2 : announces 0 (nth 1 (skipn 1 l) x)).
  { split; [|apply (waits_by [0%nat]); [vm_compute; reflexivity|left; reflexivity]]. eexists. eexists. eexists. split; [vm_compute; reflexivity|]. split; [vm_compute; reflexivity|]. split; [vm_compute; reflexivity|]. split; [vm_compute; reflexivity|]. split; [vm_compute; reflexivity|].
    vm_compute. left. reflexivity. }
  assert (A1 : (0 < length l)%nat) by (vm_compute; repeat constructor). assert (A2 : (1 < length (skipn 1 l))%nat) by (vm_compute; repeat constructor).
  assert (B : forallb (fun ev => match ev_call ev with OOut => true | _ => false end) (firstn 1 (skipn 1 l)) = true) by (vm_compute; reflexivity).
  assert (Z : (length (firstn 1 (skipn 1 l)) = 1)%nat) by (vm_compute; reflexivity).
  assert (Sg : forall ev, In ev l -> singular (ev_before ev) 0) by (apply singulars_by; [apply story_reach|vm_compute; reflexivity]).
  exists (firstn 0 l), (nth 0 l x), (firstn 1 (skipn 1 l)), (nth 1 (skipn 1 l) x), (skipn 2 (skipn 1 l)). pose proof (split_two l 0 1 x A1 A2) as Sp.
  split; [exact Sp|]. split; [intros E; rewrite E in Z; discriminate Z|]. split; [exact S1|]. split; [exact S2|]. split; [|split].
  - apply Sg. apply nth_In. exact A1.
  - apply Sg. apply (second_in l 0 1 x A2).
  - intros ev I. rewrite forallb_forall in B. specialize (B ev I). clear - B. unfold quiet. destruct (ev_call ev); try discriminate B; auto.
Qed.

(* In general it is not so: a query from anyone for a record that is still being
   announced makes the next announcement due at once. *)
Definition text_asked : list (tv * op) := [((1, 0), OOut); ((1, 100000), OIn (asking 5 [mkquestion (nm 97) QTYPE_TXT 1] []) peer); ((1, 100000), OOut)].
Theorem C67_refuted : exists d0 l1 ev1 l2 ev2 l3 d, reach d0 /\ history d0 (l1 ++ ev1 :: l2 ++ ev2 :: l3) d /\ announces 0 ev1 /\ announces 0 ev2 /\
  singular (ev_before ev1) 0 /\ singular (ev_before ev2) 0 /\ (forall ev, In ev l2 -> exists m from, ev_call ev = OIn m from) /\
  micros (e_now (ev_env ev2)) = micros (e_now (ev_env ev1)) + 100000.
Proof.
  set (x := mkevent text_set (at_ (1, 0)) OOut RUnit text_set). set (l := recorded text_set text_asked).
  assert (S1 : announces 0 (nth 0 l x)).
  { split; [|apply (waits_by [0%nat]); [vm_compute; reflexivity|left; reflexivity]]. eexists. eexists. eexists. split; [vm_compute; reflexivity|]. split; [vm_compute; reflexivity|]. split; [vm_compute; reflexivity|]. split; [vm_compute; reflexivity|]. split; [vm_compute; reflexivity|].
    vm_compute. left. reflexivity. }
  assert (S2 : announces 0 (nth 1 (skipn 1 l) x)).
  { split; [|apply (waits_by [0%nat]); [vm_compute; reflexivity|left; reflexivity]]. eexists. eexists. eexists. split; [vm_compute; reflexivity|]. split; [vm_compute; reflexivity|]. split; [vm_compute; reflexivity|]. split; [vm_compute; reflexivity|]. split; [vm_compute; reflexivity|].
    vm_compute. left. reflexivity. }
  assert (A1 : (0 < length l)%nat) by (vm_compute; repeat constructor). assert (A2 : (1 < length (skipn 1 l))%nat) by (vm_compute; repeat constructor).
  assert (B : forallb (fun ev => match ev_call ev with OIn _ _ => true | _ => false end) (firstn 1 (skipn 1 l)) = true) by (vm_compute; reflexivity).
  assert (T : micros (e_now (ev_env (nth 1 (skipn 1 l) x))) = micros (e_now (ev_env (nth 0 l x))) + 100000) by (vm_compute; reflexivity).
  assert (Sg : forall ev, In ev l -> singular (ev_before ev) 0) by (apply singulars_by; [apply story_reach|vm_compute; reflexivity]).
  pose proof (split_two l 0 1 x A1 A2) as Sp. pose proof (recorded_history text_asked text_set) as Hh. fold l in Hh. rewrite Sp in Hh.
  exists text_set, (firstn 0 l), (nth 0 l x), (firstn 1 (skipn 1 l)), (nth 1 (skipn 1 l) x), (skipn 2 (skipn 1 l)), (fst (played text_set text_asked)).
  split; [apply story_reach|]. split; [exact Hh|]. split; [exact S1|]. split; [exact S2|]. split; [|split; [|split]].
  - apply Sg. apply nth_In. exact A1.
  - apply Sg. apply (second_in l 0 1 x A2).
  - intros ev I. rewrite forallb_forall in B. specialize (B ev I). clear - B. destruct (ev_call ev); try discriminate B. eauto.
  - exact T.
Qed.
Print Assumptions C67_refuted.
