(* Queues of records: the linked lists and the operations on them. *)
From Verif Require Import Base Lemmas Hash HashProofs Wire Rec.

(* ------------------------------------------------------------------ *)
(* Heaps *)

Lemma hset_same : forall h i r, hset h i r i = Some r.
Proof. intros. unfold hset. rewrite Nat.eqb_refl. reflexivity. Qed.
Lemma hset_other : forall h i r j, j <> i -> hset h i r j = h j.
Proof. intros h i r j H. unfold hset. apply Nat.eqb_neq in H. rewrite H. reflexivity. Qed.
Lemma hdel_same : forall h i, hdel h i i = None.
Proof. intros. unfold hdel. rewrite Nat.eqb_refl. reflexivity. Qed.
Lemma hdel_other : forall h i j, j <> i -> hdel h i j = h j.
Proof. intros h i j H. unfold hdel. apply Nat.eqb_neq in H. rewrite H. reflexivity. Qed.
Lemma hget_some : forall h i r, h i = Some r -> hget h i = Ok r.
Proof. intros h i r H. unfold hget. rewrite H. reflexivity. Qed.

Lemma ptr_eqb_eq : forall a b, ptr_eqb a b = true <-> a = b.
Proof.
  intros [x|] [y|]; cbn [ptr_eqb]; split; intros H; try discriminate; try reflexivity.
  - apply Nat.eqb_eq in H. congruence.
  - inversion H. apply Nat.eqb_refl.
Qed.
Lemma ptr_eqb_neq : forall a b, ptr_eqb a b = false <-> a <> b.
Proof.
  intros a b. split; intros H.
  - intros E. apply ptr_eqb_eq in E. congruence.
  - destruct (ptr_eqb a b) eqn:E; [|reflexivity]. apply ptr_eqb_eq in E. contradiction.
Qed.

Lemma queue_eqb_eq : forall a b, queue_eqb a b = true <-> a = b.
Proof. intros [] []; cbn; split; intros; congruence. Qed.
Lemma queue_eqb_refl : forall a, queue_eqb a a = true.
Proof. intros []; reflexivity. Qed.
Lemma queue_eqb_neq : forall a b, a <> b -> queue_eqb a b = false.
Proof. intros [] [] H; cbn; congruence. Qed.
Lemma queue_dec : forall a b : queue, {a = b} + {a <> b}.
Proof. decide equality. Qed.

Lemma head_set_same : forall s q p, head (set_head s q p) q = p.
Proof. intros s [] p; reflexivity. Qed.
Lemma head_set_other : forall s q p k, k <> q -> head (set_head s q p) k = head s k.
Proof. intros s [] p [] H; try congruence; reflexivity. Qed.
Lemma head_hp : forall s h q, head (set_hp s h) q = head s q.
Proof. intros s h []; reflexivity. Qed.

(* Everything but the queue links is the same. *)
Definition nolink (r : mrec) : mrec := set_link r None.
Definition hframe (h h' : heap) : Prop := forall x, option_map nolink (h x) = option_map nolink (h' x).

Lemma hframe_refl : forall h, hframe h h.
Proof. intros h x. reflexivity. Qed.
Lemma hframe_trans : forall a b c, hframe a b -> hframe b c -> hframe a c.
Proof. intros a b c H1 H2 x. rewrite H1. apply H2. Qed.
Lemma hframe_set : forall h x r p, h x = Some r -> hframe h (hset h x (set_link r p)).
Proof.
  intros h x r p E y. destruct (Nat.eq_dec y x) as [->|N].
  - rewrite hset_same, E. reflexivity.
  - rewrite hset_other by exact N. reflexivity.
Qed.
Lemma hframe_some : forall h h' x r, hframe h h' -> h x = Some r -> exists r', h' x = Some r' /\ nolink r' = nolink r.
Proof.
  intros h h' x r H E. specialize (H x). rewrite E in H. cbn [option_map] in H.
  destruct (h' x) as [r'|]; [|discriminate]. exists r'. split; [reflexivity|]. symmetry. exact (f_equal (fun o => match o with Some y => y | None => nolink r end) H).
Qed.
Lemma hframe_some' : forall h h' x r', hframe h h' -> h' x = Some r' -> exists r, h x = Some r /\ nolink r' = nolink r.
Proof.
  intros h h' x r' H E. specialize (H x). rewrite E in H. cbn [option_map] in H.
  destruct (h x) as [r|]; [|discriminate]. exists r. split; [reflexivity|]. symmetry. exact (f_equal (fun o => match o with Some y => y | None => nolink r' end) H).
Qed.
Lemma hframe_none : forall h h' x, hframe h h' -> (h x <> None <-> h' x <> None).
Proof.
  intros h h' x H. specialize (H x). destruct (h x), (h' x); cbn in H; split; intros A; congruence.
Qed.
Lemma nolink_fields : forall r r', nolink r' = nolink r ->
  rr r' = rr r /\ unique r' = unique r /\ modified r' = modified r /\ tries r' = tries r /\ conflict r' = conflict r /\ last_sent r' = last_sent r.
Proof. intros [] [] H. inversion H. cbn. repeat split; congruence. Qed.

(* The fields of the state that no queue operation touches. *)
Definition same_rest (s s' : recs) : Prop :=
  fresh s' = fresh s /\ pub s' = pub s /\ uans s' = uans s /\
  t_pause s' = t_pause s /\ t_probe s' = t_probe s /\ t_publish s' = t_publish s /\ conflicts s' = conflicts s.
Definition sframe (s s' : recs) : Prop := same_rest s s' /\ hframe (hp s) (hp s').

Lemma sframe_refl : forall s, sframe s s.
Proof. intros s. split; [repeat split|apply hframe_refl]. Qed.
Lemma sframe_trans : forall a b c, sframe a b -> sframe b c -> sframe a c.
Proof.
  intros a b c [(A1 & A2 & A3 & A4 & A5 & A6 & A7) HA] [(B1 & B2 & B3 & B4 & B5 & B6 & B7) HB].
  split; [repeat split; congruence|eapply hframe_trans; eauto].
Qed.

(* ------------------------------------------------------------------ *)
(* Linked lists *)

Fixpoint chain (h : heap) (p : option nat) (l : list nat) : Prop :=
  match l with
  | [] => p = None
  | x :: t => p = Some x /\ exists r, h x = Some r /\ chain h (link r) t
  end.

Lemma chain_ext : forall h h' l p, (forall x, In x l -> h' x = h x) -> chain h p l -> chain h' p l.
Proof.
  intros h h' l. induction l as [|x t IH]; intros p H C; cbn [chain] in *; [exact C|].
  destruct C as [E (r & Hr & C)]. split; [exact E|]. exists r. split.
  - rewrite H by (left; reflexivity). exact Hr.
  - apply IH; [|exact C]. intros y Hy. apply H. right. exact Hy.
Qed.

Lemma chain_live : forall h l p x, chain h p l -> In x l -> h x <> None.
Proof.
  intros h l. induction l as [|y t IH]; intros p x C I; [destruct I|].
  cbn [chain] in C. destruct C as [E (r & Hr & C)]. destruct I as [->|I].
  - congruence.
  - eapply IH; eauto.
Qed.

(* Links may change at elements outside, other fields anywhere. *)
Lemma chain_links : forall h h' l p, (forall x r, In x l -> h x = Some r -> exists r', h' x = Some r' /\ link r' = link r) -> chain h p l -> chain h' p l.
Proof.
  intros h h' l. induction l as [|x t IH]; intros p H C; cbn [chain] in *; [exact C|].
  destruct C as [E (r & Hr & C)]. split; [exact E|].
  destruct (H x r (or_introl eq_refl) Hr) as (r' & Hr' & L). exists r'. split; [exact Hr'|].
  rewrite L. apply IH; [|exact C]. intros y s Hy Hs. apply (H y s); [right; exact Hy|exact Hs].
Qed.

Lemma remove1_in : forall r l x, In x (remove1 r l) -> In x l.
Proof.
  intros r l. induction l as [|y t IH]; intros x H; cbn [remove1] in H; [destruct H|].
  destruct (Nat.eqb y r); [right; exact H|]. destruct H as [->|H]; [left; reflexivity|right; apply IH; exact H].
Qed.
Lemma remove1_notin : forall r l, ~ In r l -> remove1 r l = l.
Proof.
  intros r l. induction l as [|y t IH]; intros H; cbn [remove1]; [reflexivity|].
  destruct (Nat.eqb_spec y r) as [->|N]; [exfalso; apply H; left; reflexivity|].
  rewrite IH; [reflexivity|]. intros I. apply H. right. exact I.
Qed.
Lemma remove1_nodup : forall r l, NoDup l -> NoDup (remove1 r l).
Proof.
  intros r l. induction l as [|y t IH]; intros H; cbn [remove1]; [constructor|].
  inversion H as [|? ? H1 H2]; subst. destruct (Nat.eqb y r); [exact H2|].
  constructor; [|apply IH; exact H2]. intros I. apply H1. eapply remove1_in; eauto.
Qed.
Lemma remove1_in_iff : forall r l x, NoDup l -> (In x (remove1 r l) <-> In x l /\ x <> r).
Proof.
  intros r l. induction l as [|y t IH]; intros x H; cbn [remove1]; [cbn; tauto|].
  inversion H as [|? ? H1 H2]; subst. destruct (Nat.eqb_spec y r) as [->|N].
  - split.
    + intros I. split; [right; exact I|]. intros ->. contradiction.
    + intros [[->|I] D]; [congruence|exact I].
  - cbn [In]. rewrite IH by exact H2. split.
    + intros [->|[I D]]; auto.
    + intros [[->|I] D]; auto.
Qed.
Lemma remove1_self : forall r l, NoDup l -> ~ In r (remove1 r l).
Proof. intros r l H I. apply remove1_in_iff in I; [|exact H]. destruct I. congruence. Qed.

Lemma remove_loop_spec : forall l fuel h p r, chain h p l -> NoDup l -> (length l < fuel)%nat -> p <> Some r ->
  exists h', remove_loop fuel h p r = Ok h' /\ chain h' p (remove1 r l) /\ hframe h h' /\ (forall x, ~ In x l -> h' x = h x).
Proof.
  induction l as [|x t IH]; intros fuel h p r C N F D.
  - cbn [chain] in C. subst p. destruct fuel as [|fuel]; [cbn in F; lia|].
    exists h. cbn [remove_loop remove1 chain]. repeat split; auto.
  - cbn [chain] in C. destruct C as [-> (X & HX & C)]. destruct fuel as [|fuel]; [lia|].
    inversion N as [|? ? N1 N2]; subst.
    assert (Dx : x <> r) by congruence.
    cbn [remove_loop]. rewrite (hget_some _ _ _ HX). cbn [bind].
    cbn [remove1]. destruct (Nat.eqb_spec x r) as [->|_]; [congruence|].
    destruct (ptr_eqb (link X) (Some r)) eqn:E.
    + apply ptr_eqb_eq in E. rewrite E in C. destruct t as [|y t']; [cbn in C; discriminate|].
      cbn [chain] in C. destruct C as [E2 (Y & HY & C)]. inversion E2; subst y. clear E2.
      rewrite (hget_some _ _ _ HY). cbn [bind].
      assert (HY' : hset h x (set_link X (link Y)) r = Some Y) by (rewrite hset_other by congruence; exact HY).
      rewrite (hget_some _ _ _ HY'). cbn [bind].
      eexists. split; [reflexivity|]. cbn [remove1]. rewrite Nat.eqb_refl.
      inversion N2 as [|? ? N3 N4]; subst. repeat split.
      * exists (set_link X (link Y)). split.
        -- rewrite hset_other by exact Dx. apply hset_same.
        -- cbn [link set_link]. eapply chain_ext; [|exact C]. intros z Hz.
           rewrite !hset_other; [reflexivity| |].
           ++ intros ->. apply N1. right. exact Hz.
           ++ intros ->. contradiction.
      * eapply hframe_trans; [apply hframe_set; exact HX|apply hframe_set; exact HY'].
      * intros z Hz. rewrite !hset_other; [reflexivity| |]; intros ->; apply Hz; cbn; auto.
    + destruct (ptr_eqb (link X) (Some x)) eqn:E2.
      { apply ptr_eqb_eq in E2. rewrite E2 in C. destruct t as [|y t']; [cbn in C; discriminate|].
        cbn [chain] in C. destruct C as [E3 _]. inversion E3; subst. exfalso. apply N1. left. reflexivity. }
      cbn [length] in F. apply ptr_eqb_neq in E.
      destruct (IH fuel h (link X) r C N2 ltac:(lia) E) as (h' & E' & C' & Fr & U).
      exists h'. split; [exact E'|]. cbn [chain]. repeat split.
      * exists X. split; [|exact C']. rewrite U by exact N1. exact HX.
      * exact Fr.
      * intros z Hz. apply U. intros I. apply Hz. right. exact I.
Qed.

Lemma on_list_spec : forall l fuel h p r, chain h p l -> (length l < fuel)%nat ->
  exists b, on_list fuel h p r = Ok b /\ (b = true <-> In r l).
Proof.
  induction l as [|x t IH]; intros fuel h p r C F.
  - cbn [chain] in C. subst p. destruct fuel as [|fuel]; [cbn in F; lia|].
    exists false. split; [reflexivity|]. split; [discriminate|intros []].
  - cbn [chain] in C. destruct C as [-> (X & HX & C)]. destruct fuel as [|fuel]; [lia|].
    cbn [on_list]. destruct (Nat.eqb_spec x r) as [->|N].
    + exists true. split; [reflexivity|]. split; auto. intros _. left. reflexivity.
    + rewrite (hget_some _ _ _ HX). cbn [bind]. cbn [length] in F.
      destruct (IH fuel h (link X) r C ltac:(lia)) as (b & E & B). exists b. split; [exact E|].
      rewrite B. cbn [In]. split; [auto|]. intros [?|?]; [congruence|assumption].
Qed.

(* ------------------------------------------------------------------ *)
(* The four queues; qs gives the contents of each. *)

Record qok (s : recs) (qs : queue -> list nat) : Prop := mkqok {
  qk_fresh : forall x, hp s x <> None -> (x < fresh s)%nat;
  qk_chain : forall q, chain (hp s) (head s q) (qs q);
  qk_nodup : forall q, NoDup (qs q);
  qk_disj : forall p q x, In x (qs p) -> In x (qs q) -> p = q
}.

Lemma qok_ext : forall s qs qs', qok s qs -> (forall q, qs' q = qs q) -> qok s qs'.
Proof.
  intros s qs qs' [F C N D] E. split; [exact F| | |].
  - intros q. rewrite E. apply C.
  - intros q. rewrite E. apply N.
  - intros p q x. rewrite !E. apply D.
Qed.

Lemma qok_live : forall s qs q x, qok s qs -> In x (qs q) -> hp s x <> None.
Proof. intros s qs q x H I. eapply chain_live; [apply (qk_chain _ _ H)|exact I]. Qed.

Lemma nodup_bound : forall (l : list nat) n, NoDup l -> (forall x, In x l -> (x < n)%nat) -> (length l <= n)%nat.
Proof.
  intros l n N B. rewrite <- (seq_length n 0). apply NoDup_incl_length; [exact N|].
  intros x I. apply in_seq. specialize (B x I). lia.
Qed.

Lemma qok_fuel : forall s qs q, qok s qs -> (length (qs q) < qfuel s)%nat.
Proof.
  intros s qs q H. unfold qfuel. assert (length (qs q) <= fresh s)%nat; [|lia].
  apply nodup_bound; [apply (qk_nodup _ _ H)|]. intros x I. apply (qk_fresh _ _ H). eapply qok_live; eauto.
Qed.

Definition on (q : queue) (l : list nat) (qs : queue -> list nat) : queue -> list nat :=
  fun k => if queue_eqb k q then l else qs k.

Lemma on_same : forall q l qs, on q l qs q = l.
Proof. intros. unfold on. rewrite queue_eqb_refl. reflexivity. Qed.
Lemma on_other : forall q l qs k, k <> q -> on q l qs k = qs k.
Proof. intros. unfold on. rewrite queue_eqb_neq by assumption. reflexivity. Qed.

Lemma sframe_head : forall s q p h, hframe (hp s) h -> sframe s (set_hp (set_head s q p) h).
Proof. intros s q p h H. split; [repeat split|exact H]. Qed.

Lemma r_remove_list_spec : forall s qs q r, qok s qs -> hp s r <> None ->
  exists s', r_remove_list s q r = Ok s' /\ qok s' (on q (remove1 r (qs q)) qs) /\ sframe s s'.
Proof.
  intros s qs q r H L. unfold r_remove_list. pose proof (qk_chain _ _ H q) as Cq.
  pose proof (qk_nodup _ _ H q) as Nq.
  assert (D : forall k, NoDup (on q (remove1 r (qs q)) qs k)).
  { intros k. destruct (queue_dec k q) as [->|N].
    - rewrite on_same. apply remove1_nodup. exact Nq.
    - rewrite on_other by exact N. apply (qk_nodup _ _ H). }
  assert (D2 : forall p k x, In x (on q (remove1 r (qs q)) qs p) -> In x (on q (remove1 r (qs q)) qs k) -> p = k).
  { assert (I : forall p x, In x (on q (remove1 r (qs q)) qs p) -> In x (qs p)).
    { intros p x. destruct (queue_dec p q) as [->|N].
      - rewrite on_same. apply remove1_in.
      - rewrite on_other by exact N. auto. }
    intros p k x A B. apply (qk_disj _ _ H p k x); auto. }
  destruct (ptr_eqb (head s q) (Some r)) eqn:E.
  - apply ptr_eqb_eq in E. rewrite E in Cq. destruct (qs q) as [|y t] eqn:Q; [cbn in Cq; discriminate|].
    cbn [chain] in Cq. destruct Cq as [E2 (X & HX & C)]. inversion E2; subst y. clear E2.
    rewrite (hget_some _ _ _ HX). cbn [bind]. eexists. split; [reflexivity|]. split.
    + split; [| |exact D|exact D2].
      * intros x Hx. cbn [hp set_hp fresh] in *. apply (qk_fresh _ _ H). rewrite (hframe_none _ _ _ (hframe_set (hp s) r X None HX)). exact Hx.
      * intros k. cbn [hp set_hp]. destruct (queue_dec k q) as [->|N].
        -- rewrite head_hp, head_set_same, on_same. cbn [remove1]. rewrite Nat.eqb_refl.
           eapply chain_ext; [|exact C]. intros x Hx. inversion Nq; subst. apply hset_other. intros ->. contradiction.
        -- rewrite head_hp, head_set_other, on_other by exact N. eapply chain_ext; [|apply (qk_chain _ _ H)].
           intros x Hx. apply hset_other. intros ->. apply N. apply (qk_disj _ _ H k q r); [exact Hx|]. rewrite Q. left. reflexivity.
    + apply sframe_head. apply hframe_set. exact HX.
  - apply ptr_eqb_neq in E.
    destruct (remove_loop_spec (qs q) (qfuel s) (hp s) (head s q) r Cq Nq (qok_fuel _ _ _ H) E) as (h' & E' & C' & Fr & U).
    rewrite E'. cbn [bind]. eexists. split; [reflexivity|]. split.
    + split; [| |exact D|exact D2].
      * intros x Hx. cbn [hp set_hp fresh] in *. apply (qk_fresh _ _ H). rewrite (hframe_none _ _ _ Fr). exact Hx.
      * intros k. cbn [hp set_hp]. rewrite head_hp. destruct (queue_dec k q) as [->|N].
        -- rewrite on_same. exact C'.
        -- rewrite on_other by exact N. eapply chain_ext; [|apply (qk_chain _ _ H)].
           intros x Hx. apply U. intros I. apply N. apply (qk_disj _ _ H k q x); assumption.
    + split; [repeat split|exact Fr].
Qed.

Definition skips (skip : option queue) (q : queue) : bool :=
  match skip with Some k => queue_eqb q k | None => false end.

Lemma remove_unless_spec : forall s qs skip q r, qok s qs -> hp s r <> None ->
  exists s', remove_unless s skip q r = Ok s' /\ qok s' (on q (if skips skip q then qs q else remove1 r (qs q)) qs) /\ sframe s s'.
Proof.
  intros s qs skip q r H L. unfold remove_unless. pose proof (qk_chain _ _ H q) as Cq.
  destruct (head s q) as [y|] eqn:E.
  - assert (S : forall s', s' = s -> exists s'', Ok s' = Ok s'' /\ qok s'' (on q (qs q) qs) /\ sframe s s'').
    { intros s' ->. exists s. split; [reflexivity|]. split; [|apply sframe_refl]. eapply qok_ext; [exact H|].
      intros k. destruct (queue_dec k q) as [->|N]; [apply on_same|apply on_other; exact N]. }
    destruct skip as [k|]; cbn [skips].
    + destruct (queue_eqb q k); [apply S; reflexivity|apply r_remove_list_spec; assumption].
    + apply r_remove_list_spec; assumption.
  - destruct (qs q) as [|z t] eqn:Q; [|cbn [chain] in Cq; destruct Cq; discriminate].
    exists s. split; [reflexivity|]. split; [|apply sframe_refl]. eapply qok_ext; [exact H|].
    intros k. destruct (queue_dec k q) as [->|N]; [rewrite on_same, Q|apply on_other; exact N].
    cbn [remove1]. destruct (skips skip q); reflexivity.
Qed.

(* The queues after _r_remove_lists. *)
Definition removed (r : nat) (skip : option queue) (qs : queue -> list nat) : queue -> list nat :=
  fun k => if skips skip k then qs k else remove1 r (qs k).

Lemma sframe_live : forall s s' x, sframe s s' -> hp s x <> None -> hp s' x <> None.
Proof. intros s s' x [_ H] L. rewrite <- (hframe_none _ _ _ H). exact L. Qed.

Lemma r_remove_lists_spec : forall s qs r skip, qok s qs -> hp s r <> None ->
  exists s', r_remove_lists s r skip = Ok s' /\ qok s' (removed r skip qs) /\ sframe s s'.
Proof.
  intros s qs r skip H L. unfold r_remove_lists.
  destruct (remove_unless_spec s qs skip Probing r H L) as (s1 & E1 & H1 & F1). rewrite E1. cbn [bind].
  destruct (remove_unless_spec s1 _ skip Now r H1 (sframe_live _ _ _ F1 L)) as (s2 & E2 & H2 & F2). rewrite E2. cbn [bind].
  pose proof (sframe_trans _ _ _ F1 F2) as F12.
  destruct (remove_unless_spec s2 _ skip Pause r H2 (sframe_live _ _ _ F12 L)) as (s3 & E3 & H3 & F3). rewrite E3. cbn [bind].
  pose proof (sframe_trans _ _ _ F12 F3) as F123.
  destruct (remove_unless_spec s3 _ skip Publish r H3 (sframe_live _ _ _ F123 L)) as (s4 & E4 & H4 & F4).
  exists s4. split; [exact E4|]. split; [|eapply sframe_trans; eauto].
  eapply qok_ext; [exact H4|]. intros []; reflexivity.
Qed.

Lemma r_push_spec : forall s qs q r, qok s qs -> hp s r <> None -> (forall k, k <> q -> ~ In r (qs k)) ->
  exists s', r_push s q r = Ok s' /\ qok s' (on q (if in_dec Nat.eq_dec r (qs q) then qs q else r :: qs q) qs) /\ sframe s s'.
Proof.
  intros s qs q r H L O. unfold r_push.
  destruct (on_list_spec (qs q) (qfuel s) (hp s) (head s q) r (qk_chain _ _ H q) (qok_fuel _ _ _ H)) as (b & E & B).
  rewrite E. cbn [bind]. destruct (in_dec Nat.eq_dec r (qs q)) as [I|I].
  - rewrite (proj2 B I). exists s. split; [reflexivity|]. split; [|apply sframe_refl]. eapply qok_ext; [exact H|].
    intros k. destruct (queue_dec k q) as [->|N]; [apply on_same|apply on_other; exact N].
  - destruct b; [exfalso; apply I; apply B; reflexivity|].
    destruct (hp s r) as [X|] eqn:HX; [|congruence]. rewrite (hget_some _ _ _ HX). cbn [bind].
    eexists. split; [reflexivity|].
    assert (Fr : hframe (hp s) (hset (hp s) r (set_link X (head s q)))) by (apply hframe_set; exact HX).
    split; [|split; [repeat split|exact Fr]].
    split.
    + intros x Hx. cbn [hp set_hp set_head fresh] in *. apply (qk_fresh _ _ H). rewrite (hframe_none _ _ _ Fr). exact Hx.
    + intros k. cbn [hp set_hp set_head]. destruct (queue_dec k q) as [->|N].
      * rewrite head_set_same, on_same. cbn [chain]. split; [reflexivity|]. eexists. split; [apply hset_same|].
        cbn [link set_link]. eapply chain_ext; [|apply (qk_chain _ _ H)]. intros x Hx. apply hset_other. intros ->. contradiction.
      * rewrite head_set_other, head_hp, on_other by exact N. eapply chain_ext; [|apply (qk_chain _ _ H)].
        intros x Hx. apply hset_other. intros ->. exact (O k N Hx).
    + intros k. destruct (queue_dec k q) as [->|N].
      * rewrite on_same. constructor; [exact I|apply (qk_nodup _ _ H)].
      * rewrite on_other by exact N. apply (qk_nodup _ _ H).
    + assert (W : forall p x, In x (on q (r :: qs q) qs p) -> In x (qs p) \/ (x = r /\ p = q)).
      { intros p x. destruct (queue_dec p q) as [->|N].
        - rewrite on_same. cbn [In]. intros [->|?]; auto.
        - rewrite on_other by exact N. auto. }
      intros p k x A1 A2. apply W in A1. apply W in A2. destruct A1 as [A1|[-> ->]], A2 as [A2|[D1 D2]]; try congruence.
      * apply (qk_disj _ _ H p k x); assumption.
      * subst. destruct (queue_dec p q) as [->|N]; [reflexivity|]. exfalso. exact (O p N A1).
      * destruct (queue_dec k q) as [->|N]; [reflexivity|]. exfalso. exact (O k N A2).
Qed.

(* Remove from the other queues, then push: the record ends up on q. *)
Definition enq (q : queue) (r : nat) (qs : queue -> list nat) : queue -> list nat :=
  fun k => if queue_eqb k q then if in_dec Nat.eq_dec r (qs q) then qs q else r :: qs q else remove1 r (qs k).

Lemma enq_in : forall q r qs k x, (forall k, NoDup (qs k)) -> (In x (enq q r qs k) <-> (x = r /\ k = q) \/ (x <> r /\ In x (qs k))).
Proof.
  intros q r qs k x N. unfold enq. destruct (queue_eqb k q) eqn:E.
  - apply queue_eqb_eq in E. subst k. destruct (in_dec Nat.eq_dec r (qs q)) as [I|I]; cbn [In];
      destruct (Nat.eq_dec x r) as [->|D]; intuition congruence.
  - rewrite remove1_in_iff by apply N. assert (k <> q) by (intros ->; rewrite queue_eqb_refl in E; discriminate). intuition congruence.
Qed.

Lemma r_enq_spec : forall s qs q r, qok s qs -> hp s r <> None ->
  exists s', (s1 <- r_remove_lists s r (Some q);; r_push s1 q r) = Ok s' /\ qok s' (enq q r qs) /\ sframe s s'.
Proof.
  intros s qs q r H L.
  destruct (r_remove_lists_spec s qs r (Some q) H L) as (s1 & E1 & H1 & F1). rewrite E1. cbn [bind].
  destruct (r_push_spec s1 _ q r H1 (sframe_live _ _ _ F1 L)) as (s2 & E2 & H2 & F2).
  { intros k N. unfold removed. cbn [skips]. rewrite queue_eqb_neq by exact N. apply remove1_self. apply (qk_nodup _ _ H). }
  exists s2. split; [exact E2|]. split; [|eapply sframe_trans; eauto].
  eapply qok_ext; [exact H2|]. intros k. unfold enq, on, removed. cbn [skips]. rewrite queue_eqb_refl.
  destruct (queue_eqb k q) eqn:E; reflexivity.
Qed.
