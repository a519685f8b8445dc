(* What mdnsd_out does to the published records and puts into the message. *)
From Verif Require Import Base Lemmas Hash HashProofs Wire Rec Qry Out RecInv RecSafe RecOps RecAddr.

(* ------------------------------------------------------------------ *)
(* Effects on the heap *)

(* h' is h with each record changed by f (links aside). *)
Definition after (f : nat -> mrec -> option mrec) (h h' : heap) : Prop :=
  forall x, option_map nolink (h' x) = match h x with None => None | Some X => option_map nolink (f x X) end.

Lemma after_some : forall f h h' x X, after f h h' -> h x = Some X -> option_map nolink (h' x) = option_map nolink (f x X).
Proof. intros f h h' x X H E. rewrite (H x), E. reflexivity. Qed.
Lemma after_none : forall f h h' x, after f h h' -> h x = None -> h' x = None.
Proof. intros f h h' x H E. specialize (H x). rewrite E in H. destruct (h' x); [discriminate|reflexivity]. Qed.
Lemma after_frame : forall h h', hframe h h' -> after (fun _ X => Some X) h h'.
Proof. intros h h' H x. rewrite <- (H x). destruct (h x); reflexivity. Qed.

Definition tdone (X : mrec) : bool := a_ttl (rr X) =? 0.

(* The record after it was sent as a reply. *)
Definition replied (t : tv) (X : mrec) : option mrec :=
  if tdone X then None else Some (set_modified (set_sent X t) false).
(* The record after it was announced. *)
Definition published (t : tv) (X : mrec) : option mrec :=
  if tdone X then None else Some (set_sent (set_tries X (tries X + 1)) t).

Definition upon (l : list nat) (f : mrec -> option mrec) (x : nat) (X : mrec) : option mrec :=
  if mem x l then f X else Some X.

Lemma mem_iff : forall x l, mem x l = true <-> In x l.
Proof.
  intros x l. unfold mem. rewrite existsb_exists. split.
  - intros (y & I & E). apply Nat.eqb_eq in E. subst. exact I.
  - intros I. exists x. split; [exact I|apply Nat.eqb_refl].
Qed.
Lemma mem_false : forall x l, mem x l = false <-> ~ In x l.
Proof. intros x l. rewrite <- mem_iff. destruct (mem x l); split; congruence. Qed.

(* The calls made for the records l of the heap h. *)
Definition at_rec {A : Type} (h : heap) (f : mrec -> list A) (x : nat) : list A :=
  match h x with Some X => f X | None => [] end.
Definition calls_of (cls : Z) (h : heap) (l : list nat) : list mcall := flat_map (at_rec h (answer_calls cls)) l.
Definition holds (h : heap) (p : mrec -> bool) (x : nat) : bool := match h x with Some X => p X | None => false end.
(* The records of a queue that are sent: all, or those for service enumeration *)
Definition sent_of (dsc : bool) (h : heap) (l : list nat) : list nat :=
  filter (holds h (fun X => negb (dsc && disco_skips X))) l.
Definition kept_of (h : heap) (l : list nat) : list nat := filter (holds h (fun X => negb (tdone X))) l.

Lemma holds_at : forall h p x X, h x = Some X -> holds h p x = p X.
Proof. intros h p x X E. unfold holds. rewrite E. reflexivity. Qed.

(* Predicates and calls do not look at links. *)
Lemma holds_ext : forall h h' p l, (forall X Y, nolink X = nolink Y -> p X = p Y) ->
  (forall x, In x l -> option_map nolink (h' x) = option_map nolink (h x)) -> filter (holds h' p) l = filter (holds h p) l.
Proof.
  intros h h' p l P. induction l as [|x l IH]; intros H; [reflexivity|]. cbn [filter].
  rewrite IH by (intros y I; apply H; right; exact I).
  assert (E : holds h' p x = holds h p x).
  { specialize (H x (or_introl eq_refl)). unfold holds. destruct (h' x) as [X|] eqn:E1, (h x) as [Y|] eqn:E2; cbn in H; try discriminate; [|reflexivity].
    apply P. exact (f_equal (fun o => match o with Some y => y | None => nolink X end) H). }
  rewrite E. reflexivity.
Qed.
Lemma flat_ext : forall (A : Type) h h' (f : mrec -> list A) l, (forall X Y, nolink X = nolink Y -> f X = f Y) ->
  (forall x, In x l -> option_map nolink (h' x) = option_map nolink (h x)) -> flat_map (at_rec h' f) l = flat_map (at_rec h f) l.
Proof.
  intros A h h' f l P. induction l as [|x l IH]; intros H; [reflexivity|]. cbn [flat_map].
  rewrite IH by (intros y I; apply H; right; exact I). f_equal.
  specialize (H x (or_introl eq_refl)). unfold at_rec. destruct (h' x) as [X|], (h x) as [Y|]; cbn in H; try discriminate; [|reflexivity].
  apply P. exact (f_equal (fun o => match o with Some y => y | None => nolink X end) H).
Qed.
Lemma answer_calls_nolink : forall cls X Y, nolink X = nolink Y -> answer_calls cls X = answer_calls cls Y.
Proof. intros cls X Y H. apply nolink_fields in H. destruct H as (E1 & E2 & _). unfold answer_calls, flush_bit. rewrite E1, E2. reflexivity. Qed.
Lemma skips_nolink : forall dsc X Y, nolink X = nolink Y -> negb (dsc && disco_skips X) = negb (dsc && disco_skips Y).
Proof. intros dsc X Y H. apply nolink_fields in H. destruct H as (E1 & _). unfold disco_skips. rewrite E1. reflexivity. Qed.
Lemma tdone_nolink : forall X Y, nolink X = nolink Y -> negb (tdone X) = negb (tdone Y).
Proof. intros X Y H. apply nolink_fields in H. destruct H as (E1 & _). unfold tdone. rewrite E1. reflexivity. Qed.

(* ------------------------------------------------------------------ *)
(* _r_out *)

Lemma pop_inv : forall s qs q r l X, rinv s qs -> qs q = r :: l -> q <> Probing -> q <> Publish -> hp s r = Some X ->
  let s1 := set_head s q (if ptr_eqb (link X) (Some r) then None else link X) in
  rinv s1 (on q l qs) /\ off (on q l qs) r.
Proof.
  intros s qs q r l X H Q N1 N2 E s1. pose proof (ri_q _ _ H) as HQ.
  pose proof (qk_chain _ _ HQ q) as C. rewrite Q in C. cbn [chain] in C. destruct C as [Eh (X' & EX & C)].
  replace X' with X in * by congruence. clear EX X'.
  pose proof (qk_nodup _ _ HQ q) as ND. rewrite Q in ND. inversion ND as [|? ? ND1 ND2]; subst.
  assert (Ls : ptr_eqb (link X) (Some r) = false).
  { apply ptr_eqb_neq. intros K. rewrite K in C. destruct l as [|y l]; cbn [chain] in C; [discriminate|].
    destruct C as [C _]. inversion C; subst. apply ND1. left. reflexivity. }
  assert (I : forall k x, In x (on q l qs k) -> In x (qs k)).
  { intros k x. destruct (queue_dec k q) as [->|D]; [rewrite on_same, Q; right; assumption|rewrite on_other by exact D; auto]. }
  assert (O : off (on q l qs) r).
  { intros k. destruct (queue_dec k q) as [->|D]; [rewrite on_same; exact ND1|].
    rewrite on_other by exact D. intros K. apply D. apply (qk_disj _ _ HQ k q r); [exact K|rewrite Q; left; reflexivity]. }
  split; [|exact O]. unfold s1. rewrite Ls. eapply rinv_frame; [exact H| | | |].
  - split; cbn [hp fresh set_head].
    + apply (qk_fresh _ _ HQ).
    + intros k. destruct (queue_dec k q) as [->|D].
      * rewrite head_set_same, on_same. exact C.
      * rewrite head_set_other, on_other by exact D. apply (qk_chain _ _ HQ).
    + intros k. destruct (queue_dec k q) as [->|D]; [rewrite on_same; exact ND2|rewrite on_other by exact D; apply (qk_nodup _ _ HQ)].
    + intros a b x A B. apply (qk_disj _ _ HQ a b x); auto.
  - split; [repeat split|apply hframe_refl].
  - intros x. rewrite on_other by congruence. reflexivity.
  - intros x. rewrite on_other by congruence. reflexivity.
Qed.

Lemma removed_off : forall r skip qs q, off qs r -> removed r skip qs q = qs q.
Proof. intros r skip qs q O. unfold removed. destruct (skips skip q); [reflexivity|]. apply remove1_notin. apply O. Qed.

(* Remove from all queues, then free, for a record that is on none. *)
Lemma remove_done : forall s qs r X skip, rinv s qs -> off qs r -> hp s r = Some X ->
  exists s1 s', r_remove_lists s r skip = Ok s1 /\ r_done s1 r = Ok s' /\ rinv s' qs /\ hp s' r = None /\ hbut r (hp s) (hp s') /\
    fresh s' = fresh s /\ uans s' = filter (fun u => negb (Nat.eqb (u_r u) r)) (uans s) /\
    t_pause s' = t_pause s /\ t_probe s' = t_probe s /\ t_publish s' = t_publish s /\ conflicts s' = conflicts s.
Proof.
  intros s qs r X skip H O E.
  destruct (r_remove_lists_spec s qs r skip (ri_q _ _ H) ltac:(congruence)) as (s1 & E1 & Q1 & F1).
  assert (Q1' : qok s1 qs) by (eapply qok_ext; [exact Q1|intros q; symmetry; apply removed_off; exact O]).
  assert (H1 : rinv s1 qs) by (eapply rinv_frame; [exact H|exact Q1'|exact F1|reflexivity..]).
  destruct F1 as [(R1 & R2 & R3 & R4 & R5 & R6 & R7) F1].
  destruct (hframe_some _ _ _ _ F1 E) as (X1 & EX1 & NX1).
  destruct (r_done_spec s1 qs r X1 Q1' (ri_p _ _ H1) (ri_ua _ _ H1) O EX1) as (s' & E' & H' & Hh & Hf & Hu & _ & T1 & T2 & T3 & T4 & _).
  { intros x Y _ EY. exact (ri_u _ _ H1 x Y EY). }
  exists s1, s'. split; [exact E1|]. split; [exact E'|]. split; [exact H'|]. split; [rewrite Hh; apply hdel_same|].
  split; [|repeat split; congruence]. intros y N. rewrite Hh, hdel_other by exact N. apply F1.
Qed.

Lemma remove_done_rest : forall r (us : list unicast) l, filter (fun u => negb (mem (u_r u) l)) (filter (fun u => negb (Nat.eqb (u_r u) r)) us)
  = filter (fun u => negb (mem (u_r u) (r :: l))) us.
Proof.
  intros r us l. induction us as [|u us IH]; [reflexivity|]. cbn [filter]. unfold mem at 2. cbn [existsb]. fold (mem (u_r u) l).
  destruct (Nat.eqb (u_r u) r); cbn [negb orb]; [exact IH|]. cbn [filter]. rewrite IH. reflexivity.
Qed.

Record same_times (s s' : recs) : Prop := mksame_times {
  st_fresh : fresh s' = fresh s; st_pause : t_pause s' = t_pause s; st_probe : t_probe s' = t_probe s;
  st_publish : t_publish s' = t_publish s; st_conflicts : conflicts s' = conflicts s
}.
Lemma same_times_refl : forall s, same_times s s.
Proof. intros s. split; reflexivity. Qed.
Lemma same_times_trans : forall a b c, same_times a b -> same_times b c -> same_times a c.
Proof. intros a b c [A1 A2 A3 A4 A5] [B1 B2 B3 B4 B5]. split; congruence. Qed.

(* The records of l that are freed when sent *)
Definition done_of (h : heap) (l : list nat) : list nat := filter (holds h tdone) l.

Lemma filter_filter_nil : forall (A : Type) (l : list A), filter (fun _ => true) l = l.
Proof. induction l as [|x l IH]; [reflexivity|]. cbn [filter]. rewrite IH. reflexivity. Qed.

Lemma r_out_spec : forall l fuel s qs t frm cls dsc q m seen ret,
  rinv s qs -> q <> Probing -> q <> Publish -> qs q = l -> (length l < fuel)%nat ->
  exists pre rest s',
    let snt := sent_of dsc (hp s) pre in
    let m' := m ++ calls_of cls (hp s) snt in
    l = pre ++ rest /\
    r_out fuel s t frm cls dsc q m seen ret = Ok (s', m', fold_left answered_add (kept_of (hp s) snt) seen, ret + zlen snt) /\
    rinv s' (on q rest qs) /\ after (upon snt (replied t)) (hp s) (hp s') /\ same_times s s' /\
    uans s' = filter (fun u => negb (mem (u_r u) (done_of (hp s) snt))) (uans s) /\
    (forall x rest', rest = x :: rest' -> exists X, hp s x = Some X /\ frm <= mlen m' + rr_len (rr X)).
Proof.
  induction l as [|r l IH]; intros fuel s qs t frm cls dsc q m seen ret H N1 N2 Q F.
  - exists [], [], s. cbv zeta. destruct fuel as [|fuel]; [cbn in F; lia|].
    pose proof (qk_chain _ _ (ri_q _ _ H) q) as C. rewrite Q in C. cbn [chain] in C. cbn [r_out]. rewrite C.
    cbn [sent_of filter calls_of flat_map kept_of fold_left done_of]. rewrite !app_nil_r, zlen_nil, Z.add_0_r.
    split; [reflexivity|]. split; [reflexivity|]. split; [|split; [|split; [apply same_times_refl|split]]].
    + eapply rinv_ext; [exact H|]. intros k. destruct (queue_dec k q) as [->|D]; [rewrite on_same; congruence|apply on_other; exact D].
    + apply after_frame. apply hframe_refl.
    + symmetry. apply filter_filter_nil.
    + intros x rest' K. discriminate.
  - destruct fuel as [|fuel]; [lia|]. cbn [length] in F.
    pose proof (qk_chain _ _ (ri_q _ _ H) q) as C. rewrite Q in C. cbn [chain] in C. destruct C as [Eh (X & E & C)].
    cbn [r_out]. rewrite Eh, (hget_some _ _ _ E). cbn [bind].
    destruct (mlen m + rr_len (rr X) <? frm) eqn:Fit.
    2:{ exists [], (r :: l), s. cbv zeta. cbn [sent_of filter calls_of flat_map kept_of fold_left done_of]. rewrite !app_nil_r, zlen_nil, Z.add_0_r.
        split; [reflexivity|]. split; [reflexivity|]. split; [|split; [|split; [apply same_times_refl|split]]].
        + eapply rinv_ext; [exact H|]. intros k. destruct (queue_dec k q) as [->|D]; [rewrite on_same; congruence|apply on_other; exact D].
        + apply after_frame. apply hframe_refl.
        + symmetry. apply filter_filter_nil.
        + intros x rest' K. inversion K; subst. exists X. split; [exact E|lia]. }
    destruct (pop_inv s qs q r l X H Q N1 N2 E) as [H1 O1].
    set (s1 := set_head s q (if ptr_eqb (link X) (Some r) then None else link X)) in *.
    pose proof (qk_nodup _ _ (ri_q _ _ H) q) as ND. rewrite Q in ND. inversion ND as [|? ? ND1 ND2]; subst.
    assert (OO : forall (rest : list nat) k, on q rest (on q l qs) k = on q rest qs k).
    { intros rest k. destruct (queue_dec k q) as [->|D]; [rewrite !on_same; reflexivity|rewrite !on_other by exact D; reflexivity]. }
    destruct (dsc && disco_skips X) eqn:Sk.
    + destruct (IH fuel s1 (on q l qs) t frm cls dsc q m seen ret H1 N1 N2 (on_same q l qs) ltac:(lia)) as (pre & rest & s' & E1 & E2 & H' & A' & T' & U' & R').
      exists (r :: pre), rest, s'. cbv zeta. change (hp s1) with (hp s) in *.
      assert (SE : sent_of dsc (hp s) (r :: pre) = sent_of dsc (hp s) pre).
      { unfold sent_of. cbn [filter]. rewrite (holds_at _ _ _ _ E), Sk. reflexivity. }
      rewrite SE. split; [cbn [app]; congruence|]. split; [exact E2|]. split; [eapply rinv_ext; [exact H'|intros k; symmetry; apply OO]|].
      split; [exact A'|]. split; [destruct T'; split; assumption|]. split; [exact U'|exact R'].
    + cbn [hp set_head] in *. set (s2 := set_hp s1 (hset (hp s1) r (set_modified (set_sent X t) false))).
      assert (E1' : hp s1 r = Some X) by exact E.
      assert (H2 : rinv s2 (on q l qs)).
      { eapply rinv_set; [exact H1|exact E1'|reflexivity|reflexivity|].
        destruct (ri_u _ _ H1 r X E1') as [U1 U2 U3 U4 U5 U6 U7]. split; assumption. }
      assert (E2' : hp s2 r = Some (set_modified (set_sent X t) false)) by apply hset_same.
      assert (SE : forall pre, sent_of dsc (hp s) (r :: pre) = r :: sent_of dsc (hp s) pre).
      { intros pre. unfold sent_of. cbn [filter]. rewrite (holds_at _ _ _ _ E), Sk. reflexivity. }
      assert (B12 : hbut r (hp s) (hp s2)) by (apply (hbut_set (hp s1) r)).
      change (a_ttl (rr X) =? 0) with (tdone X). destruct (tdone X) eqn:TD.
      * destruct (remove_done s2 (on q l qs) r _ (Some q) H2 O1 E2') as (s3 & s4 & R3 & R4 & H4 & N4 & B4 & Fr4 & U4 & T1 & T2 & T3 & T4).
        change (set_hp s1 (hset (hp s1) r (set_modified (set_sent X t) false))) with s2. rewrite R3. cbn [bind]. rewrite R4. cbn [bind].
        destruct (IH fuel s4 (on q l qs) t frm cls dsc q (m ++ answer_calls cls X) seen (ret + 1) H4 N1 N2 (on_same q l qs) ltac:(lia)) as (pre & rest & s' & E1 & E3 & H' & A' & T' & U' & R').
        assert (B : hbut r (hp s) (hp s4)) by (eapply hbut_trans; eauto).
        assert (NI : forall x, In x pre -> x <> r) by (intros x I ->; apply ND1; rewrite E1; apply in_or_app; left; exact I).
        assert (SP : sent_of dsc (hp s4) pre = sent_of dsc (hp s) pre).
        { apply holds_ext; [apply skips_nolink|]. intros x I. symmetry. apply B. apply NI. exact I. }
        assert (NS : forall x, In x (sent_of dsc (hp s) pre) -> x <> r) by (intros x I; apply NI; unfold sent_of in I; apply filter_In in I; tauto).
        exists (r :: pre), rest, s'. cbv zeta. rewrite SE. rewrite SP in *.
        assert (CE : calls_of cls (hp s) (r :: sent_of dsc (hp s) pre) = answer_calls cls X ++ calls_of cls (hp s4) (sent_of dsc (hp s) pre)).
        { unfold calls_of. cbn [flat_map]. f_equal; [unfold at_rec; rewrite E; reflexivity|].
          symmetry. apply flat_ext; [apply answer_calls_nolink|]. intros x I. symmetry. apply B. apply NS. exact I. }
        rewrite CE, app_assoc.
        split; [cbn [app]; congruence|]. split; [|split; [eapply rinv_ext; [exact H'|intros k; symmetry; apply OO]|split; [|split; [|split]]]].
        -- rewrite E3. f_equal. f_equal; [f_equal|].
           ++ unfold kept_of; cbn [filter]. rewrite (holds_at _ _ _ _ E), TD. cbn [negb]. f_equal.
              apply holds_ext; [apply tdone_nolink|]. intros x I. symmetry. apply B. apply NS. exact I.
           ++ rewrite zlen_cons. lia.
        -- intros x. destruct (Nat.eq_dec x r) as [->|D].
           ++ rewrite E. unfold upon, mem. cbn [existsb]. rewrite Nat.eqb_refl. cbn [orb]. unfold replied. rewrite TD.
              pose proof (after_none _ _ _ _ A' N4) as K. rewrite K. reflexivity.
           ++ rewrite (A' x). specialize (B x D). unfold upon, mem. cbn [existsb]. apply Nat.eqb_neq in D. rewrite D. cbn [orb].
              destruct (hp s4 x) as [Y|] eqn:EY, (hp s x) as [Z|] eqn:EZ; cbn in B; try discriminate; [|reflexivity].
              assert (BN : nolink Z = nolink Y) by exact (f_equal (fun o => match o with Some y => y | None => nolink Z end) B).
              pose proof (nolink_fields _ _ BN) as (F1 & F2 & F3 & F4 & F5 & F6). fold (mem x (sent_of dsc (hp s) pre)).
              destruct (mem x (sent_of dsc (hp s) pre)); [|cbn [option_map]; congruence].
              unfold replied, tdone. rewrite F1. destruct (a_ttl (rr Y) =? 0); [reflexivity|]. cbn [option_map]. f_equal.
              unfold nolink. destruct Y, Z. cbn in *. subst. reflexivity.
        -- eapply same_times_trans; [|exact T']. split; cbn [s2 s1] in *; assumption.
        -- rewrite U', U4. change (uans s2) with (uans s).
           assert (DE : done_of (hp s4) (sent_of dsc (hp s) pre) = done_of (hp s) (sent_of dsc (hp s) pre)).
           { unfold done_of. apply holds_ext.
             - intros A B0 K. apply (f_equal negb) in K || idtac. pose proof (tdone_nolink _ _ K) as K'. destruct (tdone A), (tdone B0); cbn in K'; congruence.
             - intros x I. symmetry. apply B. apply NS. exact I. }
           rewrite DE. rewrite remove_done_rest. unfold done_of; cbn [filter]. rewrite (holds_at _ _ _ _ E), TD. reflexivity.
        -- intros x rest' K. destruct (R' x rest' K) as (Y & EY & LY).
           assert (D : x <> r) by (intros ->; apply ND1; rewrite E1, K; apply in_or_app; right; left; reflexivity).
           specialize (B x D). rewrite EY in B. destruct (hp s x) as [Z|] eqn:EZ; [|discriminate]. exists Z. split; [reflexivity|].
           assert (BN : nolink Z = nolink Y) by exact (f_equal (fun o => match o with Some y => y | None => nolink Z end) B).
           apply nolink_fields in BN. destruct BN as (BN & _). rewrite BN. exact LY.
      * destruct (IH fuel s2 (on q l qs) t frm cls dsc q (m ++ answer_calls cls X) (answered_add seen r) (ret + 1) H2 N1 N2 (on_same q l qs) ltac:(lia)) as (pre & rest & s' & E1 & E3 & H' & A' & T' & U' & R').
        assert (NI : forall x, In x pre -> x <> r) by (intros x I ->; apply ND1; rewrite E1; apply in_or_app; left; exact I).
        assert (SP : sent_of dsc (hp s2) pre = sent_of dsc (hp s) pre).
        { apply holds_ext; [apply skips_nolink|]. intros x I. symmetry. apply B12. apply NI. exact I. }
        assert (NS : forall x, In x (sent_of dsc (hp s) pre) -> x <> r) by (intros x I; apply NI; unfold sent_of in I; apply filter_In in I; tauto).
        exists (r :: pre), rest, s'. cbv zeta. rewrite SE. rewrite SP in *.
        assert (CE : calls_of cls (hp s) (r :: sent_of dsc (hp s) pre) = answer_calls cls X ++ calls_of cls (hp s2) (sent_of dsc (hp s) pre)).
        { unfold calls_of. cbn [flat_map]. f_equal; [unfold at_rec; rewrite E; reflexivity|].
          symmetry. apply flat_ext; [apply answer_calls_nolink|]. intros x I. symmetry. apply B12. apply NS. exact I. }
        rewrite CE, app_assoc.
        split; [cbn [app]; congruence|]. split; [|split; [eapply rinv_ext; [exact H'|intros k; symmetry; apply OO]|split; [|split; [|split]]]].
        -- change (set_hp s1 (hset (hp s1) r (set_modified (set_sent X t) false))) with s2. rewrite E3. f_equal. f_equal; [f_equal|].
           ++ unfold kept_of; cbn [filter]. rewrite (holds_at _ _ _ _ E), TD. cbn [negb fold_left]. f_equal.
              apply holds_ext; [apply tdone_nolink|]. intros x I. symmetry. apply B12. apply NS. exact I.
           ++ rewrite zlen_cons. lia.
        -- intros x. destruct (Nat.eq_dec x r) as [->|D].
           ++ rewrite E. unfold upon at 1, mem. cbn [existsb]. rewrite Nat.eqb_refl. cbn [orb]. unfold replied. rewrite TD.
              rewrite (A' r), E2'. unfold upon. rewrite (proj2 (mem_false r _)); [reflexivity|]. intros I. apply (NS r I). reflexivity.
           ++ rewrite (A' x). specialize (B12 x D). unfold upon, mem. cbn [existsb]. apply Nat.eqb_neq in D. rewrite D. cbn [orb].
              destruct (hp s2 x) as [Y|] eqn:EY, (hp s x) as [Z|] eqn:EZ; cbn in B12; try discriminate; [|reflexivity].
              assert (BN : nolink Z = nolink Y) by exact (f_equal (fun o => match o with Some y => y | None => nolink Z end) B12).
              pose proof (nolink_fields _ _ BN) as (F1 & F2 & F3 & F4 & F5 & F6). fold (mem x (sent_of dsc (hp s) pre)).
              destruct (mem x (sent_of dsc (hp s) pre)); [|cbn [option_map]; congruence].
              unfold replied, tdone. rewrite F1. destruct (a_ttl (rr Y) =? 0); [reflexivity|]. cbn [option_map]. f_equal.
              unfold nolink. destruct Y, Z. cbn in *. subst. reflexivity.
        -- eapply same_times_trans; [|exact T']. split; reflexivity.
        -- rewrite U'. change (uans s2) with (uans s).
           assert (DE : done_of (hp s2) (sent_of dsc (hp s) pre) = done_of (hp s) (sent_of dsc (hp s) pre)).
           { unfold done_of. apply holds_ext.
             - intros A B0 K. pose proof (tdone_nolink _ _ K) as K'. destruct (tdone A), (tdone B0); cbn in K'; congruence.
             - intros x I. symmetry. apply B12. apply NS. exact I. }
           rewrite DE. unfold done_of; cbn [filter]. rewrite (holds_at _ _ _ _ E), TD. reflexivity.
        -- intros x rest' K. destruct (R' x rest' K) as (Y & EY & LY).
           assert (D : x <> r) by (intros ->; apply ND1; rewrite E1, K; apply in_or_app; right; left; reflexivity).
           specialize (B12 x D). rewrite EY in B12. destruct (hp s x) as [Z|] eqn:EZ; [|discriminate]. exists Z. split; [reflexivity|].
           assert (BN : nolink Z = nolink Y) by exact (f_equal (fun o => match o with Some y => y | None => nolink Z end) B12).
           apply nolink_fields in BN. destruct BN as (BN & _). rewrite BN. exact LY.
Qed.
