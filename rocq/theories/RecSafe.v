(* The invariant of the published records, and that every function of Rec.v
   preserves it without undefined behaviour. *)
From Verif Require Import Base Lemmas Hash HashProofs Wire Rec RecInv.

(* ------------------------------------------------------------------ *)
(* The invariant *)

(* The hash table holds exactly the live records, each in its bucket. *)
Record pok (s : recs) : Prop := mkpok {
  pk_len : length (pub s) = Z.to_nat SPRIME;
  pk_live : forall x, hp s x <> None <-> In x (concat (pub s));
  pk_nodup : NoDup (concat (pub s));
  pk_bucket : forall i x X, In x (nth i (pub s) []) -> hp s x = Some X -> rbucket (a_name (rr X)) = i
}.

(* Probing state and announcement count agree with the queues. *)
Record urec (inprobing inpublish : Prop) (X : mrec) : Prop := mkurec {
  ur_range : 0 <= unique X <= 5;
  ur_probing : 1 <= unique X <= 4 <-> inprobing;
  ur_conflict : unique X <> 0 -> conflict X <> None;
  ur_tries0 : 1 <= unique X <= 4 -> tries X = 0;
  ur_tries : 0 <= tries X <= 4;
  ur_publish : inpublish -> tries X < 4;
  ur_publish' : 1 <= tries X < 4 -> inpublish
}.
Definition uok (s : recs) (qs : queue -> list nat) : Prop :=
  forall x X, hp s x = Some X -> urec (In x (qs Probing)) (In x (qs Publish)) X.

Definition uaok (s : recs) : Prop := forall u, In u (uans s) -> hp s (u_r u) <> None.

Record rinv (s : recs) (qs : queue -> list nat) : Prop := mkrinv {
  ri_q : qok s qs; ri_p : pok s; ri_u : uok s qs; ri_ua : uaok s
}.

(* ------------------------------------------------------------------ *)
(* Transfer *)

Lemma rbucket_lt : forall n, (rbucket n < Z.to_nat SPRIME)%nat.
Proof. intros n. unfold rbucket. pose proof (bucket_index_range n SPRIME ltac:(reflexivity)). apply Z2Nat.inj_lt; lia. Qed.

Lemma probes_iff : forall X, 0 <= unique X <= 5 -> (probes X = true <-> 1 <= unique X <= 4).
Proof. intros X H. unfold probes. lia. Qed.

Lemma sframe_hp : forall s s', sframe s s' -> hframe (hp s) (hp s').
Proof. intros s s' [_ H]. exact H. Qed.

(* The heap agrees except at x (links aside). *)
Definition hbut (x : nat) (h h' : heap) : Prop := forall y, y <> x -> option_map nolink (h y) = option_map nolink (h' y).
Lemma hbut_refl : forall x h, hbut x h h.
Proof. intros x h y _. reflexivity. Qed.
Lemma hbut_frame : forall x h h', hframe h h' -> hbut x h h'.
Proof. intros x h h' H y _. apply H. Qed.
Lemma hbut_trans : forall x a b c, hbut x a b -> hbut x b c -> hbut x a c.
Proof. intros x a b c H1 H2 y N. rewrite H1 by exact N. apply H2. exact N. Qed.
Lemma hbut_set : forall h x X, hbut x h (hset h x X).
Proof. intros h x X y N. rewrite hset_other by exact N. reflexivity. Qed.
Lemma hbut_del : forall h x, hbut x h (hdel h x).
Proof. intros h x y N. rewrite hdel_other by exact N. reflexivity. Qed.
Lemma hbut_frame_r : forall x a b c, hbut x a b -> hframe b c -> hbut x a c.
Proof. intros x a b c H1 H2. eapply hbut_trans; [exact H1|apply hbut_frame; exact H2]. Qed.

Lemma onone : forall (a b : option mrec), option_map nolink a = option_map nolink b -> (a <> None <-> b <> None).
Proof. intros [a|] [b|] H; cbn in H; split; intros A; congruence. Qed.
Lemma osome : forall (a b : option mrec) X, option_map nolink a = option_map nolink b -> b = Some X -> exists Y, a = Some Y /\ nolink X = nolink Y.
Proof.
  intros a b X H E. subst b. cbn [option_map] in H. destruct a as [Y|]; [|discriminate]. exists Y. split; [reflexivity|].
  symmetry. exact (f_equal (fun o => match o with Some y => y | None => nolink X end) H).
Qed.
Lemma osome_r : forall (a b : option mrec) X, option_map nolink a = option_map nolink b -> a = Some X -> exists Y, b = Some Y /\ nolink Y = nolink X.
Proof. intros a b X H E. symmetry in H. destruct (osome _ _ _ H E) as (Y & E' & N). exists Y. split; [exact E'|]. symmetry. exact N. Qed.

Lemma urec_nolink : forall (A B A' B' : Prop) X Y, urec A B X -> nolink Y = nolink X -> (A <-> A') -> (B <-> B') -> urec A' B' Y.
Proof.
  intros A B A' B' X Y [H1 H2 H3 H4 H5 H6 H7] N HA HB. apply nolink_fields in N.
  destruct N as (_ & Nu & _ & Nt & Nc & _). split; rewrite ?Nu, ?Nt, ?Nc; tauto.
Qed.

Lemma uok_frame : forall s s' qs qs', uok s qs -> hframe (hp s) (hp s') ->
  (forall x, In x (qs' Probing) <-> In x (qs Probing)) -> (forall x, In x (qs' Publish) <-> In x (qs Publish)) -> uok s' qs'.
Proof.
  intros s s' qs qs' H F P1 P2 x X E. destruct (hframe_some' _ _ _ _ F E) as (Y & EY & N).
  eapply urec_nolink; [apply (H x Y EY)|exact N| |]; [symmetry; apply P1|symmetry; apply P2].
Qed.

Lemma pok_frame : forall s s', pok s -> pub s' = pub s -> hframe (hp s) (hp s') -> pok s'.
Proof.
  intros s s' [A B C D] P F. split; rewrite ?P; auto.
  - intros x. rewrite <- (hframe_none _ _ _ F). apply B.
  - intros i x X I E. destruct (hframe_some' _ _ _ _ F E) as (Y & EY & N). apply nolink_fields in N.
    destruct N as (N & _). rewrite N. eapply D; eauto.
Qed.

Lemma uaok_frame : forall s s', uaok s -> uans s' = uans s -> hframe (hp s) (hp s') -> uaok s'.
Proof. intros s s' H U F u I. rewrite U in I. rewrite <- (hframe_none _ _ _ F). apply H. exact I. Qed.

(* Changing fields of a record other than its link keeps the queues. *)
Lemma qok_set : forall s qs r X Y, qok s qs -> hp s r = Some X -> link Y = link X -> qok (set_hp s (hset (hp s) r Y)) qs.
Proof.
  intros s qs r X Y H E L. split.
  - intros x. cbn [hp set_hp fresh]. destruct (Nat.eq_dec x r) as [->|N].
    + intros _. apply (qk_fresh _ _ H). congruence.
    + rewrite hset_other by exact N. apply (qk_fresh _ _ H).
  - intros q. rewrite head_hp. cbn [hp set_hp]. eapply chain_links; [|apply (qk_chain _ _ H)].
    intros x Z I EZ. destruct (Nat.eq_dec x r) as [->|N].
    + exists Y. split; [apply hset_same|]. congruence.
    + exists Z. split; [rewrite hset_other by exact N; exact EZ|reflexivity].
  - apply (qk_nodup _ _ H).
  - apply (qk_disj _ _ H).
Qed.

Lemma qok_head : forall s s' qs, qok s qs -> hp s' = hp s -> fresh s' = fresh s -> (forall q, head s' q = head s q) -> qok s' qs.
Proof.
  intros s s' qs H E1 E2 E3. split.
  - rewrite E1, E2. apply (qk_fresh _ _ H).
  - intros q. rewrite E1, E3. apply (qk_chain _ _ H).
  - apply (qk_nodup _ _ H).
  - apply (qk_disj _ _ H).
Qed.

Lemma pok_set : forall s r X Y, pok s -> hp s r = Some X -> a_name (rr Y) = a_name (rr X) -> pok (set_hp s (hset (hp s) r Y)).
Proof.
  intros s r X Y [A B C D] E N. split; cbn [pub hp set_hp]; auto.
  - intros x. rewrite <- B. destruct (Nat.eq_dec x r) as [->|K].
    + rewrite hset_same, E. split; congruence.
    + rewrite hset_other by exact K. reflexivity.
  - intros i x Z I EZ. destruct (Nat.eq_dec x r) as [->|K].
    + rewrite hset_same in EZ. inversion EZ; subst Z. rewrite N. eapply D; eauto.
    + rewrite hset_other in EZ by exact K. eapply D; eauto.
Qed.

Lemma uaok_set : forall s r Y, uaok s -> uaok (set_hp s (hset (hp s) r Y)).
Proof.
  intros s r Y H u I. cbn [hp set_hp uans] in *. destruct (Nat.eq_dec (u_r u) r) as [->|K].
  - rewrite hset_same. discriminate.
  - rewrite hset_other by exact K. apply H. exact I.
Qed.

Lemma uok_set : forall s qs r Y, uok s qs -> urec (In r (qs Probing)) (In r (qs Publish)) Y -> uok (set_hp s (hset (hp s) r Y)) qs.
Proof.
  intros s qs r Y H U x Z E. cbn [hp set_hp] in E. destruct (Nat.eq_dec x r) as [->|K].
  - rewrite hset_same in E. inversion E; subst. exact U.
  - rewrite hset_other in E by exact K. apply H. exact E.
Qed.

Lemma rinv_set : forall s qs r X Y, rinv s qs -> hp s r = Some X -> link Y = link X -> a_name (rr Y) = a_name (rr X) ->
  urec (In r (qs Probing)) (In r (qs Publish)) Y -> rinv (set_hp s (hset (hp s) r Y)) qs.
Proof.
  intros s qs r X Y [HQ HP HU HA] E L N U. split.
  - eapply qok_set; eauto.
  - eapply pok_set; eauto.
  - apply uok_set; auto.
  - apply uaok_set; auto.
Qed.

(* Fields of the state that carry no obligations. *)
Lemma rinv_other : forall s s' qs, rinv s qs -> hp s' = hp s -> fresh s' = fresh s -> pub s' = pub s -> uans s' = uans s ->
  (forall q, head s' q = head s q) -> rinv s' qs.
Proof.
  intros s s' qs [HQ HP HU HA] E1 E2 E3 E4 E5. split.
  - eapply qok_head; eauto.
  - eapply pok_frame; [exact HP|exact E3|rewrite E1; apply hframe_refl].
  - intros x X E. rewrite E1 in E. apply HU. exact E.
  - eapply uaok_frame; [exact HA|exact E4|rewrite E1; apply hframe_refl].
Qed.

Lemma rinv_frame : forall s s' qs qs', rinv s qs -> qok s' qs' -> sframe s s' ->
  (forall x, In x (qs' Probing) <-> In x (qs Probing)) -> (forall x, In x (qs' Publish) <-> In x (qs Publish)) -> rinv s' qs'.
Proof.
  intros s s' qs qs' [HQ HP HU HA] HQ' [(F1 & F2 & F3 & _) F] P1 P2. split.
  - exact HQ'.
  - eapply pok_frame; eauto.
  - eapply uok_frame; eauto.
  - eapply uaok_frame; eauto.
Qed.

Lemma rinv_ext : forall s qs qs', rinv s qs -> (forall q, qs' q = qs q) -> rinv s qs'.
Proof.
  intros s qs qs' H E. eapply rinv_frame; [exact H|eapply qok_ext; [apply (ri_q _ _ H)|exact E]|apply sframe_refl| |]; intros x; rewrite E; reflexivity.
Qed.

Lemma new_rinv : rinv recs_new (fun _ => []).
Proof.
  split.
  - split; cbn [hp recs_new fresh].
    + congruence.
    + intros []; reflexivity.
    + constructor.
    + intros p q x [].
  - assert (E : forall n, concat (repeat (@nil nat) n) = []) by (induction n as [|n IH]; [reflexivity|exact IH]).
    split; cbn [hp pub recs_new].
    + apply repeat_length.
    + intros x. rewrite E. cbn. tauto.
    + rewrite E. constructor.
    + intros i x X I. assert (nth i (repeat (@nil nat) (Z.to_nat SPRIME)) [] = []) as K.
      { destruct (Nat.lt_ge_cases i (Z.to_nat SPRIME)) as [A|A].
        - apply nth_repeat.
        - apply nth_overflow. rewrite repeat_length. exact A. }
      rewrite K in I. destruct I.
  - intros x X E. discriminate E.
  - intros u [].
Qed.

(* ------------------------------------------------------------------ *)
(* Publishing and sending *)

Lemma r_publish_probes : forall s t r X, hp s r = Some X -> probes X = true ->
  r_publish s t r = Ok (set_hp s (hset (hp s) r (set_modified X true))).
Proof.
  intros s t r X E P. unfold r_publish. rewrite (hget_some _ _ _ E). cbn [bind].
  change (probes (set_modified X true)) with (probes X). rewrite P. reflexivity.
Qed.

(* The state _r_publish continues with. *)
Definition announced (s : recs) (t : tv) (r : nat) (X : mrec) : recs :=
  set_tpublish (set_hp s (hset (hp s) r (set_tries (set_modified X true) 0))) t.

Lemma hset_hset : forall h r X Y, hframe (hset (hset h r X) r Y) (hset h r Y).
Proof.
  intros h r X Y x. destruct (Nat.eq_dec x r) as [->|N].
  - rewrite !hset_same. reflexivity.
  - rewrite !hset_other by exact N. reflexivity.
Qed.

Lemma r_publish_spec : forall s qs t r X, qok s qs -> hp s r = Some X -> probes X = false ->
  exists s', r_publish s t r = Ok s' /\ qok s' (enq Publish r qs) /\ sframe (announced s t r X) s'.
Proof.
  intros s qs t r X H E P. unfold r_publish. rewrite (hget_some _ _ _ E). cbn [bind].
  change (probes (set_modified X true)) with (probes X). rewrite P. cbn [hp set_hp].
  set (s1 := set_tpublish (set_hp (set_hp s (hset (hp s) r (set_modified X true))) (hset (hset (hp s) r (set_modified X true)) r (set_tries (set_modified X true) 0))) t).
  assert (H1 : qok s1 qs).
  { apply (qok_head (set_hp (set_hp s (hset (hp s) r (set_modified X true))) (hset (hset (hp s) r (set_modified X true)) r (set_tries (set_modified X true) 0))));
      [|reflexivity|reflexivity|intros []; reflexivity].
    eapply (qok_set (set_hp s (hset (hp s) r (set_modified X true)))); [eapply qok_set; [exact H|exact E|reflexivity]|apply hset_same|reflexivity]. }
  assert (L : hp s1 r <> None) by (cbn [s1 hp set_tpublish set_hp]; rewrite hset_same; discriminate).
  destruct (r_enq_spec s1 qs Publish r H1 L) as (s' & E' & H' & F').
  exists s'. split; [exact E'|]. split; [exact H'|]. eapply sframe_trans; [|exact F'].
  split; [repeat split|]. intros x. cbn [hp set_hp set_tpublish announced s1].
  symmetry. apply hset_hset.
Qed.

Lemma r_publish_full : forall s qs t r X, rinv s qs -> hp s r = Some X -> probes X = false ->
  exists s', r_publish s t r = Ok s' /\ rinv s' (enq Publish r qs) /\ sframe (announced s t r X) s'.
Proof.
  intros s qs t r X H E P. pose proof (ri_u _ _ H r X E) as U.
  destruct (r_publish_spec s qs t r X (ri_q _ _ H) E P) as (s' & E' & H' & F').
  exists s'. split; [exact E'|]. split; [|exact F'].
  destruct F' as [(F1 & F2 & F3 & F4 & F5 & F6 & F7) F]. cbn [announced set_tpublish set_hp fresh pub uans hp] in *.
  pose proof (hset_same (hp s) r (set_tries (set_modified X true) 0)) as G.
  destruct (hframe_some _ _ _ _ F G) as (Y & EY & NY).
  pose proof (nolink_fields _ _ NY) as (N1 & N2 & N3 & N4 & N5 & N6).
  pose proof (qk_nodup _ _ (ri_q _ _ H)) as ND.
  assert (P0 : ~ 1 <= unique X <= 4) by (rewrite <- probes_iff by apply U; congruence).
  assert (Pr : forall x, In x (enq Publish r qs Probing) <-> In x (qs Probing)).
  { intros x. rewrite enq_in by exact ND. destruct (Nat.eq_dec x r) as [->|N]; [|intuition congruence].
    pose proof (ur_probing _ _ _ U). intuition congruence. }
  split.
  - exact H'.
  - eapply (pok_frame (set_hp s (hset (hp s) r (set_tries (set_modified X true) 0)))); [eapply pok_set; [apply (ri_p _ _ H)|exact E|reflexivity]|exact F2|exact F].
  - intros x Z EZ. destruct (hframe_some' _ _ _ _ F EZ) as (Z0 & EZ0 & NZ). cbn [hp set_hp] in EZ0.
    destruct (Nat.eq_dec x r) as [->|N].
    + rewrite hset_same in EZ0. inversion EZ0; subst Z0. eapply urec_nolink; [|exact NZ|reflexivity|reflexivity].
      destruct U as [U1 U2 U3 U4 U5 U6 U7]. split; cbn [unique tries conflict set_tries set_modified]; try lia; auto.
      rewrite Pr. exact U2.
    + rewrite hset_other in EZ0 by exact N. eapply urec_nolink; [apply (ri_u _ _ H x Z0 EZ0)|exact NZ| |].
      * symmetry. apply Pr.
      * rewrite enq_in by exact ND. intuition congruence.
  - eapply (uaok_frame (set_hp s (hset (hp s) r (set_tries (set_modified X true) 0)))); [apply uaok_set; apply (ri_ua _ _ H)|exact F3|exact F].
Qed.

Lemma r_publish_inv : forall s qs t r X, rinv s qs -> hp s r = Some X ->
  exists s' qs' Y, r_publish s t r = Ok s' /\ rinv s' qs' /\ hbut r (hp s) (hp s') /\ hp s' r = Some Y /\ rr Y = rr X /\ unique Y = unique X /\
                 fresh s' = fresh s /\ pub s' = pub s.
Proof.
  intros s qs t r X H E. pose proof (ri_u _ _ H r X E) as U. destruct (probes X) eqn:P.
  - rewrite (r_publish_probes s t r X E P). eexists; exists qs; exists (set_modified X true). split; [reflexivity|]. split; [|split; [|split; [|split; [|split; [|split]]]]]; try reflexivity.
    + eapply rinv_set; [exact H|exact E|reflexivity|reflexivity|]. destruct U as [U1 U2 U3 U4 U5 U6 U7]. split; assumption.
    + apply hbut_set.
    + apply hset_same.
  - destruct (r_publish_full s qs t r X H E P) as (s' & E' & H' & F').
    destruct F' as [(F1 & F2 & F3 & F4 & F5 & F6 & F7) F]. cbn [announced set_tpublish set_hp fresh pub uans hp] in *.
    pose proof (hset_same (hp s) r (set_tries (set_modified X true) 0)) as G.
    destruct (hframe_some _ _ _ _ F G) as (Y & EY & NY).
    pose proof (nolink_fields _ _ NY) as (N1 & N2 & N3 & N4 & N5 & N6).
    exists s', (enq Publish r qs), Y. split; [exact E'|]. split; [exact H'|split; [|split; [|split; [|split; [|split]]]]]; try assumption.
    eapply hbut_frame_r; [apply hbut_set|exact F].
Qed.

(* Which queue _r_send puts a record on, and the state it continues with. *)
Definition send_queue (X : mrec) : option queue :=
  if tries X <? 4 then None else if unique X =? 0 then Some Pause else Some Now.
Definition send_time (s : recs) (t : tv) (X : mrec) : recs :=
  if tries X <? 4 then set_tpublish s t
  else if unique X =? 0 then set_tpause s (fst t, snd t + Z.rem (snd t) 100 + 20) else s.

Lemma r_send_spec : forall s qs t r X, qok s qs -> hp s r = Some X ->
  exists s', r_send s t r = Ok s' /\
             qok s' (match send_queue X with Some q => enq q r qs | None => qs end) /\ sframe (send_time s t X) s'.
Proof.
  intros s qs t r X H E. unfold r_send, send_queue, send_time. rewrite (hget_some _ _ _ E). cbn [bind].
  destruct (tries X <? 4) eqn:T.
  - eexists. split; [reflexivity|]. split; [|apply sframe_refl]. eapply qok_head; [exact H|reflexivity|reflexivity|intros []; reflexivity].
  - destruct (unique X =? 0) eqn:U; cbn [negb].
    + apply r_enq_spec.
      * eapply qok_head; [exact H|reflexivity|reflexivity|intros []; reflexivity].
      * cbn [hp set_tpause]. congruence.
    + apply r_enq_spec; [exact H|congruence].
Qed.

Lemma send_time_fields : forall s t X, let s' := send_time s t X in
  hp s' = hp s /\ fresh s' = fresh s /\ pub s' = pub s /\ uans s' = uans s /\ conflicts s' = conflicts s /\ (forall q, head s' q = head s q).
Proof.
  intros s t X. unfold send_time. destruct (tries X <? 4); [|destruct (unique X =? 0)]; cbn; repeat split; intros []; reflexivity.
Qed.

Definition sent_queues (X : mrec) (r : nat) (qs : queue -> list nat) : queue -> list nat :=
  match send_queue X with Some q => enq q r qs | None => qs end.

Lemma r_send_full : forall s qs t r X, rinv s qs -> hp s r = Some X ->
  exists s', r_send s t r = Ok s' /\ rinv s' (sent_queues X r qs) /\ sframe (send_time s t X) s'.
Proof.
  intros s qs t r X H E. pose proof (ri_u _ _ H r X E) as U.
  destruct (r_send_spec s qs t r X (ri_q _ _ H) E) as (s' & E' & H' & F').
  pose proof (send_time_fields s t X) as T. cbv zeta in T. destruct T as (T1 & T2 & T3 & T4 & T5 & T6).
  exists s'. split; [exact E'|]. split; [|exact F'].
  assert (I1 : rinv (send_time s t X) qs) by (eapply rinv_other; eauto).
  eapply rinv_frame; [exact I1|exact H'|exact F'| |].
  - intros x. unfold sent_queues, send_queue. destruct (tries X <? 4) eqn:TT; [reflexivity|].
    pose proof (qk_nodup _ _ (ri_q _ _ H)) as ND.
    assert (~ In r (qs Probing)).
    { rewrite <- (ur_probing _ _ _ U). intros K. pose proof (ur_tries0 _ _ _ U K). lia. }
    destruct (unique X =? 0); rewrite enq_in by exact ND; intuition congruence.
  - intros x. unfold sent_queues, send_queue. destruct (tries X <? 4) eqn:TT; [reflexivity|].
    pose proof (qk_nodup _ _ (ri_q _ _ H)) as ND.
    assert (~ In r (qs Publish)).
    { intros K. pose proof (ur_publish _ _ _ U K). lia. }
    destruct (unique X =? 0); rewrite enq_in by exact ND; intuition congruence.
Qed.

Lemma r_send_inv : forall s qs t r X, rinv s qs -> hp s r = Some X ->
  exists s' qs', r_send s t r = Ok s' /\ rinv s' qs' /\ hframe (hp s) (hp s') /\ fresh s' = fresh s /\ pub s' = pub s /\ uans s' = uans s /\ conflicts s' = conflicts s.
Proof.
  intros s qs t r X H E. destruct (r_send_full s qs t r X H E) as (s' & E' & H' & F').
  pose proof (send_time_fields s t X) as T. cbv zeta in T. destruct T as (T1 & T2 & T3 & T4 & T5 & T6).
  destruct F' as [(G1 & G2 & G3 & G4 & G5 & G6 & G7) KF]. rewrite T1 in KF.
  exists s', (sent_queues X r qs). split; [exact E'|]. split; [exact H'|]. split; [exact KF|]. repeat split; congruence.
Qed.
