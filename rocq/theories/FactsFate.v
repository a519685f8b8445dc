(* What mdnsd_out does to each record, and how the message tells. *)
From Verif Require Import Base Lemmas Hash HashProofs Wire Rec Qry Out In Api RecInv RecSafe RecOps OutSafe OutPub OutProbe OutExtra QryInv QryOps CacheOps QryLoop OutAll OutSpec DaemonInv SpecDaemon FactsCalls FactsItems FactsOut FactsDrain.

Definition like (X Y : mrec) : Prop := rr Y = rr X /\ unique Y = unique X /\ tries Y = tries X.

(* S: the records in the answer section, B: the records that are probed *)
Inductive fate (dsc : bool) (S B : list nat) (qs qs' : queue -> list nat) (x : nat) (X : mrec) : option mrec -> Prop :=
| ft_gone : In x S -> tdone X = true -> (forall k, ~ In x (qs' k)) -> fate dsc S B qs qs' x X None
| ft_reply : forall Y, In x S -> tdone X = false -> In x (qs Now) \/ In x (qs Pause) -> like X Y -> (forall k, ~ In x (qs' k)) -> fate dsc S B qs qs' x X (Some Y)
| ft_announce : forall Y, In x S -> tdone X = false -> In x (qs Publish) -> rr Y = rr X -> unique Y = unique X -> tries Y = tries X + 1 ->
    (forall k, In x (qs' k) <-> k = Publish /\ tries Y < 4) -> fate dsc S B qs qs' x X (Some Y)
| ft_probe : forall Y, ~ In x S -> In x B -> In x (qs Probing) -> unique X < 4 -> rr Y = rr X -> unique Y = unique X + 1 -> tries Y = tries X ->
    (forall k, In x (qs' k) <-> k = Probing) -> fate dsc S B qs qs' x X (Some Y)
| ft_verified : forall Y, ~ In x S -> ~ In x B -> In x (qs Probing) -> unique X = 4 -> rr Y = rr X -> unique Y = 5 -> tries Y = 0 ->
    (forall k, In x (qs' k) <-> k = Publish) -> fate dsc S B qs qs' x X (Some Y)
| ft_skip : forall Y, ~ In x S -> ~ In x B -> dsc = true -> In x (qs Now) \/ In x (qs Pause) -> like X Y -> (forall k, ~ In x (qs' k)) -> fate dsc S B qs qs' x X (Some Y)
| ft_rest : forall Y, ~ In x S -> ~ In x B -> like X Y -> (forall k, In x (qs' k) <-> In x (qs k)) -> fate dsc S B qs qs' x X (Some Y).

Definition fated (d : daemon) (S B : list nat) (qs qs' : queue -> list nat) (d' : daemon) : Prop :=
  (forall x, hp (R d) x = None -> hp (R d') x = None) /\ forall x X, hp (R d) x = Some X -> fate (disco d) S B qs qs' x X (hp (R d') x).

(* ------------------------------------------------------------------ *)
Lemma after_is : forall f h h' x X, after f h h' -> h x = Some X -> match f x X with Some Z => exists Y, h' x = Some Y /\ nolink Y = nolink Z | None => h' x = None end.
Proof.
  intros f h h' x X A E. specialize (A x). rewrite E in A. destruct (f x X) as [Z|]; destruct (h' x) as [Y|]; try discriminate; [|reflexivity].
  exists Y. split; [reflexivity|]. exact (f_equal (fun o => match o with Some y => y | None => nolink X end) A).
Qed.
Lemma after_none' : forall f h h' x, after f h h' -> h x = None -> h' x = None.
Proof. intros f h h' x A E. specialize (A x). rewrite E in A. destruct (h' x); [discriminate|reflexivity]. Qed.

Lemma nodup_part : forall (A : Type) (a b : list A) x, NoDup (a ++ b) -> In x a -> ~ In x b.
Proof.
  intros A a b x N I J. induction a as [|y a IH]; [destruct I|]. cbn [app] in N. apply NoDup_cons_iff in N as [N1 N2]. destruct I as [->|I]; [|exact (IH N2 I)]. apply N1. apply in_or_app. right. exact J.
Qed.
Lemma taken : forall s qs k a b x, rinv s qs -> qs k = a ++ b -> In x a -> ~ In x b.
Proof. intros s qs k a b x H E I. eapply nodup_part; [rewrite <- E; apply (qk_nodup _ _ (ri_q _ _ H))|exact I]. Qed.
Lemma sent_or : forall dsc h l x X, h x = Some X -> In x l -> In x (sent_of dsc h l) \/ dsc = true.
Proof.
  intros dsc h l x X E I. destruct dsc; [auto|]. left. unfold sent_of. apply filter_In. split; [exact I|]. unfold holds. rewrite E. reflexivity.
Qed.

Lemma answers_fate : forall t dsc qs qs' s s' N restN P restP A restA, rinv s qs ->
  qs Now = N ++ restN -> qs Publish = P ++ restP -> qs Pause = A ++ restA -> after (sent_rec t (sent_of dsc (hp s) N ++ sent_of dsc (hp s) A) P) (hp s) (hp s') ->
  (forall k, qs' k = on Pause restA (on Publish (stays (hp s) P ++ restP) (on Now restN qs)) k) ->
  forall x X, hp s x = Some X -> fate dsc (sent_of dsc (hp s) N ++ P ++ sent_of dsc (hp s) A) [] qs qs' x X (hp s' x).
Proof.
  intros t dsc qs qs' s s' N restN P restP A restA H E1 E2 E3 Af Eq x X EX. pose proof (after_is _ _ _ _ _ Af EX) as K.
  assert (Dj : forall k j, In x (qs k) -> In x (qs j) -> k = j) by (intros k j; apply (queues_apart _ _ _ _ _ H)).
  assert (InN : In x N -> In x (qs Now)) by (intros I; rewrite E1; apply in_or_app; auto). assert (InP : In x P -> In x (qs Publish)) by (intros I; rewrite E2; apply in_or_app; auto).
  assert (InA : In x A -> In x (qs Pause)) by (intros I; rewrite E3; apply in_or_app; auto).
  assert (InN' : In x restN -> In x (qs Now)) by (intros I; rewrite E1; apply in_or_app; auto). assert (InP' : In x restP -> In x (qs Publish)) by (intros I; rewrite E2; apply in_or_app; auto).
  assert (InA' : In x restA -> In x (qs Pause)) by (intros I; rewrite E3; apply in_or_app; auto).
  assert (SP : In x (stays (hp s) P) <-> In x P /\ tdone X = false /\ tries X + 1 < 4).
  { unfold stays. rewrite filter_In. unfold holds. rewrite EX. destruct (tdone X); cbn [negb andb]; [intuition discriminate|]. rewrite Z.ltb_lt. intuition. }
  assert (Off : In x N \/ In x A -> forall k, ~ In x (qs' k)).
  { intros J k. rewrite (Eq k). destruct k; cbn [on queue_eqb]; intros I.
    - destruct J as [J|J]; [apply InN in J|apply InA in J]; pose proof (Dj _ _ I J); discriminate.
    - destruct J as [J|J]; [exact (taken _ _ _ _ _ _ H E1 J I)|apply InA in J; apply InN' in I; pose proof (Dj _ _ I J); discriminate].
    - destruct J as [J|J]; [apply InN in J; apply InA' in I; pose proof (Dj _ _ I J); discriminate|exact (taken _ _ _ _ _ _ H E3 J I)].
    - assert (I' : In x (qs Publish)) by (apply in_app_iff in I as [I|I]; [apply SP in I; apply InP; tauto|auto]). destruct J as [J|J]; [apply InN in J|apply InA in J]; pose proof (Dj _ _ I' J); discriminate. }
  assert (Cases : (In x N \/ In x A) \/ In x P \/ (~ In x N /\ ~ In x A /\ ~ In x P)).
  { destruct (in_dec Nat.eq_dec x N), (in_dec Nat.eq_dec x A), (in_dec Nat.eq_dec x P); tauto. }
  destruct Cases as [J|[J|(J1 & J2 & J3)]].
  - assert (Qu : In x (qs Now) \/ In x (qs Pause)) by (destruct J; auto).
    assert (NP : ~ In x P) by (intros I; apply InP in I; destruct Qu as [Qu|Qu]; pose proof (Dj _ _ I Qu); discriminate).
    assert (Sn : (In x (sent_of dsc (hp s) N) \/ In x (sent_of dsc (hp s) A)) \/ (dsc = true /\ ~ In x (sent_of dsc (hp s) N ++ sent_of dsc (hp s) A))).
    { destruct (in_dec Nat.eq_dec x (sent_of dsc (hp s) N ++ sent_of dsc (hp s) A)) as [I|I]; [left; apply in_app_iff; exact I|right; split; [|exact I]].
      destruct dsc; [reflexivity|]. exfalso. apply I. apply in_app_iff. destruct J as [J|J]; [left|right]; unfold sent_of; apply filter_In; (split; [exact J|unfold holds; rewrite EX; reflexivity]). }
    unfold sent_rec in K. destruct Sn as [Sn|[Ds Sn]].
    + assert (M : mem x (sent_of dsc (hp s) N ++ sent_of dsc (hp s) A) = true) by (apply mem_iff; apply in_app_iff; exact Sn). rewrite M in K. unfold replied in K.
      assert (In1 : In x (sent_of dsc (hp s) N ++ P ++ sent_of dsc (hp s) A)) by (rewrite !in_app_iff; tauto).
      destruct (tdone X) eqn:T; [rewrite K; apply ft_gone; auto|]. destruct K as (Y & -> & NY). apply nolink_fields in NY as (Y1 & Y2 & _ & Y4 & _). apply ft_reply; auto. split; [exact Y1|]. split; [exact Y2|exact Y4].
    + assert (M : mem x (sent_of dsc (hp s) N ++ sent_of dsc (hp s) A) = false) by (apply mem_false; exact Sn). rewrite M in K. apply mem_false in NP. rewrite NP in K. apply mem_false in NP.
      destruct K as (Y & -> & NY). apply nolink_fields in NY as (Y1 & Y2 & _ & Y4 & _). apply ft_skip; auto; [rewrite !in_app_iff in *; tauto|split; auto].
  - assert (Nn : ~ In x N) by (intros I; pose proof (Dj _ _ (InP J) (InN I)); discriminate). assert (Na : ~ In x A) by (intros I; pose proof (Dj _ _ (InP J) (InA I)); discriminate).
    assert (M : mem x (sent_of dsc (hp s) N ++ sent_of dsc (hp s) A) = false) by (apply mem_false; rewrite in_app_iff; intros [I|I]; apply sent_of_in in I; tauto).
    assert (M' : mem x P = true) by (apply mem_iff; exact J). unfold sent_rec in K. rewrite M, M' in K. unfold OutSafe.published in K.
    assert (In1 : In x (sent_of dsc (hp s) N ++ P ++ sent_of dsc (hp s) A)) by (rewrite !in_app_iff; tauto). pose proof (taken _ _ _ _ _ _ H E2 J) as Nr.
    destruct (tdone X) eqn:T.
    + rewrite K. apply ft_gone; auto. intros k. rewrite (Eq k). destruct k; cbn [on queue_eqb]; intros I.
      * pose proof (Dj _ _ I (InP J)). discriminate.
      * pose proof (Dj _ _ (InN' I) (InP J)). discriminate.
      * pose proof (Dj _ _ (InA' I) (InP J)). discriminate.
      * apply in_app_iff in I as [I|I]; [apply SP in I as (_ & I & _); discriminate|contradiction].
    + destruct K as (Y & -> & NY). apply nolink_fields in NY as (Y1 & Y2 & _ & Y4 & _). cbn [set_sent set_tries rr unique tries] in Y1, Y2, Y4. apply ft_announce; auto. intros k. rewrite (Eq k). destruct k; cbn [on queue_eqb].
      * split; [intros I; pose proof (Dj _ _ I (InP J)); discriminate|intros [? _]; discriminate].
      * split; [intros I; pose proof (Dj _ _ (InN' I) (InP J)); discriminate|intros [? _]; discriminate].
      * split; [intros I; pose proof (Dj _ _ (InA' I) (InP J)); discriminate|intros [? _]; discriminate].
      * rewrite in_app_iff, SP, Y4. split; [intros [I|I]; [split; [reflexivity|tauto]|contradiction]|intros [_ I]; left; auto].
  - assert (M : mem x (sent_of dsc (hp s) N ++ sent_of dsc (hp s) A) = false) by (apply mem_false; rewrite in_app_iff; intros [I|I]; apply sent_of_in in I; tauto).
    assert (M' : mem x P = false) by (apply mem_false; exact J3). unfold sent_rec in K. rewrite M, M' in K. destruct K as (Y & -> & NY). apply nolink_fields in NY as (Y1 & Y2 & _ & Y4 & _).
    apply ft_rest; [rewrite !in_app_iff; intros [I|[I|I]]; [apply sent_of_in in I| |apply sent_of_in in I]; tauto|intros []|split; auto|].
    intros k. rewrite (Eq k). destruct k; cbn [on queue_eqb]; [reflexivity|rewrite E1, in_app_iff; tauto|rewrite E3, in_app_iff; tauto|rewrite E2, !in_app_iff, SP; tauto].
Qed.

Lemma probe_fate : forall t dsc qs qs' s s' N restN A restA, rinv s qs -> qs Now = N ++ restN -> qs Pause = A ++ restA ->
  sent_of dsc (hp s) N = [] -> sent_of dsc (hp s) A = [] ->
  after (upon (probe_due s qs t) (probe_rec t)) (hp s) (hp s') ->
  (forall k, qs' k = on Publish (rev (ready (hp s) (probe_due s qs t)) ++ qs Publish)
     (on Probing (if tvdiff t (t_probe s) <=? 0 then asked (hp s) (probe_due s qs t) else qs Probing) (on Pause restA (on Now restN qs))) k) ->
  forall x X, hp s x = Some X -> fate dsc [] (asked (hp s) (probe_due s qs t)) qs qs' x X (hp s' x).
Proof.
  intros t dsc qs qs' s s' N restN A restA H E1 E3 Z1 Z2 Af Eq x X EX. pose proof (after_is _ _ _ _ _ Af EX) as K.
  assert (Dj : forall k j, In x (qs k) -> In x (qs j) -> k = j) by (intros k j; apply (queues_apart _ _ _ _ _ H)).
  assert (InN : In x N -> In x (qs Now)) by (intros I; rewrite E1; apply in_or_app; auto). assert (InA : In x A -> In x (qs Pause)) by (intros I; rewrite E3; apply in_or_app; auto).
  assert (InN' : In x restN -> In x (qs Now)) by (intros I; rewrite E1; apply in_or_app; auto). assert (InA' : In x restA -> In x (qs Pause)) by (intros I; rewrite E3; apply in_or_app; auto).
  set (l := probe_due s qs t) in *. assert (Il : In x l -> In x (qs Probing)) by apply probe_due_in.
  assert (Ra : In x (ready (hp s) l) <-> In x l /\ probed X = true) by (unfold ready; rewrite filter_In; unfold holds; rewrite EX; reflexivity).
  assert (As : In x (asked (hp s) l) <-> In x l /\ probed X = false) by (unfold asked; rewrite filter_In; unfold holds; rewrite EX, negb_true_iff; reflexivity).
  unfold upon in K. destruct (mem x l) eqn:M.
  - apply mem_iff in M. assert (Td : tvdiff t (t_probe s) <=? 0 = true) by (unfold l, probe_due in M; destruct (_ <=? 0); [reflexivity|destruct M]). rewrite Td in Eq.
    destruct (probing_range _ _ _ H (Il M)) as (X' & EX' & Ur). rewrite EX in EX'. injection EX' as <-. unfold probe_rec in K. destruct (probed X) eqn:Pr; unfold probed in Pr; destruct K as (Y & -> & NY); apply nolink_fields in NY as (Y1 & Y2 & _ & Y4 & _); cbn in Y1, Y2, Y4.
    + apply ft_verified; auto; [rewrite As; intros [_ ?]; discriminate|lia|]. intros k. rewrite (Eq k). destruct k; cbn [on queue_eqb].
      * rewrite As. split; [intros [_ ?]; discriminate|discriminate].
      * split; [intros I; pose proof (Dj _ _ (InN' I) (Il M)); discriminate|discriminate].
      * split; [intros I; pose proof (Dj _ _ (InA' I) (Il M)); discriminate|discriminate].
      * split; [reflexivity|]. intros _. apply in_or_app. left. apply in_rev. rewrite rev_involutive. apply Ra. auto.
    + apply ft_probe; auto; [apply As; auto|lia|]. intros k. rewrite (Eq k). destruct k; cbn [on queue_eqb].
      * rewrite As. tauto.
      * split; [intros I; pose proof (Dj _ _ (InN' I) (Il M)); discriminate|discriminate].
      * split; [intros I; pose proof (Dj _ _ (InA' I) (Il M)); discriminate|discriminate].
      * split; [|discriminate]. intros I. apply in_app_or in I as [I|I]; [|pose proof (Dj _ _ I (Il M)); discriminate]. apply in_rev in I. apply Ra in I as [_ I]. discriminate.
  - apply mem_false in M. destruct K as (Y & -> & NY). apply nolink_fields in NY as (Y1 & Y2 & _ & Y4 & _).
    assert (Nb : ~ In x (asked (hp s) l)) by (rewrite As; tauto). assert (Nr : ~ In x (rev (ready (hp s) l))) by (rewrite <- in_rev, Ra; tauto).
    assert (Np : In x (qs' Probing) <-> In x (qs Probing)).
    { rewrite (Eq Probing). cbn [on queue_eqb]. destruct (tvdiff t (t_probe s) <=? 0) eqn:Td; [|reflexivity]. assert (Lp : l = qs Probing) by (unfold l, probe_due; rewrite Td; reflexivity). rewrite As, <- Lp. tauto. }
    destruct (in_dec Nat.eq_dec x (N ++ A)) as [J|J]; rewrite in_app_iff in J.
    + assert (Qu : In x (qs Now) \/ In x (qs Pause)) by (destruct J; auto). assert (Ds : dsc = true).
      { destruct J as [J|J]; destruct (sent_or dsc (hp s) _ x X EX J) as [I|I]; auto; [rewrite Z1 in I|rewrite Z2 in I]; destruct I. }
      apply ft_skip; auto; [split; auto|]. intros k I. rewrite (Eq k) in I. destruct k; cbn [on queue_eqb] in I.
      * assert (I' : In x (qs Probing)) by (apply Np; rewrite (Eq Probing); exact I). destruct Qu as [Qu|Qu]; pose proof (Dj _ _ I' Qu); discriminate.
      * destruct J as [J|J]; [exact (taken _ _ _ _ _ _ H E1 J I)|pose proof (Dj _ _ (InN' I) (InA J)); discriminate].
      * destruct J as [J|J]; [pose proof (Dj _ _ (InA' I) (InN J)); discriminate|exact (taken _ _ _ _ _ _ H E3 J I)].
      * apply in_app_or in I as [I|I]; [contradiction|]. destruct Qu as [Qu|Qu]; pose proof (Dj _ _ I Qu); discriminate.
    + apply ft_rest; auto; [split; auto|]. intros k. destruct k; [exact Np|rewrite (Eq Now)|rewrite (Eq Pause)|rewrite (Eq Publish)]; cbn [on queue_eqb].
      * rewrite E1, in_app_iff. tauto.
      * rewrite E3, in_app_iff. tauto.
      * rewrite in_app_iff. tauto.
Qed.

(* ------------------------------------------------------------------ *)
(* What the message says about S and B *)
Definition question_of (cls : Z) (p : nat * mrec) : item := IQuestion (a_name (rr (snd p))) (a_type (rr (snd p))) cls.
Definition proposal_of (cls : Z) (p : nat * mrec) : item := shown SNs cls (snd p).

Inductive speaks (d : daemon) (m : omsg) (S B : list nat) : Prop :=
| sp_unicast : uans (R d) <> [] -> o_qr m = true -> S = [] -> B = [] -> speaks d m S B
| sp_response : forall E, uans (R d) = [] -> o_qr m = true -> B = [] -> items (o_calls m) = map (as_answer (class d)) (with_recs (hp (R d)) S) ++ map (as_extra (class d)) E -> speaks d m S B
| sp_probe : uans (R d) = [] -> o_qr m = false -> S = [] -> items (o_calls m) = map (question_of (class d)) (with_recs (hp (R d)) B) ++ map (proposal_of (class d)) (with_recs (hp (R d)) B) -> speaks d m S B
| sp_query : uans (R d) = [] -> o_qr m = false -> S = [] -> B = [] -> (forall i, says m i -> section_of i <> 2%nat) -> speaks d m S B.

Lemma asked_flat : forall (A : Type) h (f : mrec -> A) l, flat_map (at_rec h (fun X => if probed X then [] else [f X])) l = flat_map (at_rec h (fun X => [f X])) (asked h l).
Proof.
  intros A h f l. induction l as [|x l IH]; [reflexivity|]. unfold asked in *. cbn [flat_map filter]. unfold at_rec at 1. unfold holds at 1. destruct (h x) as [X|] eqn:E; [|exact IH].
  destruct (probed X); cbn [negb app]; [exact IH|]. cbn [flat_map]. unfold at_rec at 2. rewrite E. cbn [app]. f_equal. exact IH.
Qed.
Lemma with_recs_extra : forall cls h l, map (as_extra cls) (with_recs h l) = flat_map (at_rec h (fun X => [shown_extra cls X])) l.
Proof. intros cls h l. apply with_recs_map. intros r X. apply shown_as_extra. Qed.

Lemma out_fates : forall d e qs d' m n qs', rinv (R d) qs -> outcome d e qs d' m n qs' ->
  exists S B, fated d S B qs qs' d' /\ speaks d m S B /\ NoDup S /\ class d' = class d /\ frame d' = frame d /\ disco d' = disco d /\ is_shutdown d' = is_shutdown d /\
    (uans (R d) = [] -> uans (R d') = []) /\ (forall x, In x S -> exists k, k <> Probing /\ In x (qs k)).
Proof.
  intros d e qs d' m n qs' H O.
  assert (Ws : forall l, map (as_answer (class d)) (with_recs (hp (R d)) l) = flat_map (at_rec (hp (R d)) (fun X => [shown_answer (class d) X])) l).
  { intros l. apply with_recs_map. intros r X. apply shown_as_answer. }
  destruct O as [u us X added Eu EX G|N restN P restP s' Eu Sd E1 E2 Dp A Ua Cf Bl|N restN P restP A restA s' added all seen Eu Sd D Eall Nall Eseen Af Ua Tp Tb Cf Tq G|N restN A restA s' l Eu Sd D E1 E2 El La Af Ua Cf Tp Tb Tq|N restN A restA s' q1 q' l m ret T V Eu Sd D E1 E2 El La Af Ua Cf Tp Tb Tq QO Ql Sh Zq Uq CK TO G].
  - exists [], []. split; [|split; [apply sp_unicast; auto; rewrite Eu; discriminate|split; [constructor|]]].
    + split; cbn [with_R with_now R set_hp hp set_uans].
      * intros x E. unfold hset. destruct (Nat.eqb x (u_r u)) eqn:Z; [apply Nat.eqb_eq in Z; congruence|exact E].
      * intros x X0 E. unfold hset. destruct (Nat.eqb x (u_r u)) eqn:Z; [apply Nat.eqb_eq in Z; subst x; rewrite EX in E; injection E as <-|rewrite E]; apply ft_rest; auto; try (intros []); try (split; auto); reflexivity.
    + repeat split; [intros Z; rewrite Eu in Z; discriminate|intros x []].
  - exists (sent_of (disco d) (hp (R d)) N ++ P), []. split; [|split; [|split; [|repeat split; auto]]].
    4:{ intros x I. apply (drained_queue (R d) qs (disco d) N restN P restP [] (qs Pause) x H E1 E2 eq_refl). unfold sent_of at 2. cbn [filter]. rewrite app_nil_r. exact I. }
    + split; cbn [with_R with_now R]; [intros x; apply (after_none' _ _ _ _ A)|]. intros x X EX.
      pose proof (answers_fate (e_now e) (disco d) qs (on Publish (stays (hp (R d)) P ++ restP) (on Now restN qs)) (R d) s' N restN P restP [] (qs Pause) H E1 E2 eq_refl) as K.
      unfold sent_of in K at 2 4. cbn [filter] in K. rewrite !app_nil_r in K. apply K; [exact A| |exact EX]. intros k. destruct k; reflexivity.
    + apply (sp_response _ _ _ _ []); auto. cbn [o_calls map]. rewrite app_nil_r, Ws. rewrite <- (app_nil_r (calls_of _ _ _)). rewrite items_answers by reflexivity. apply app_nil_r.
    + pose proof (drained_nodup (R d) qs (disco d) N restN P restP [] (qs Pause) H E1 E2 eq_refl) as K. unfold sent_of in K at 2. cbn [filter] in K. rewrite app_nil_r in K. exact K.
  - destruct D as [D1 D2 D3 _ _ _ _ _]. exists all, []. subst all. split; [|split; [|split; [|repeat split; auto]]].
    4:{ intros x I. exact (drained_queue (R d) qs (disco d) N restN P restP A restA x H D1 D2 D3 I). }
    + split; cbn [with_R with_now R]; [intros x; apply (after_none' _ _ _ _ Af)|]. intros x X EX. eapply answers_fate; try eassumption. reflexivity.
    + apply (sp_response _ _ _ _ (with_recs (hp s') added)); auto. cbn [o_calls]. rewrite Ws, with_recs_extra. apply items_response.
    + eapply drained_nodup; eassumption.
  - destruct D as [D1 D2 D3 _ _ _ _ _]. subst l. exists [], (asked (hp (R d)) (probe_due (R d) qs (e_now e))). split; [|split; [|split; [constructor|repeat split; auto; intros x []]]].
    + split; cbn [with_R with_now R]; [intros x; apply (after_none' _ _ _ _ Af)|]. intros x X EX. eapply probe_fate; try eassumption.
      intros k. unfold probe_due in La. destruct (tvdiff (e_now e) (t_probe (R d)) <=? 0) eqn:Td; [reflexivity|]. exfalso. apply La. reflexivity.
    + apply sp_probe; auto. cbn [o_calls]. rewrite items_probe. rewrite (asked_flat _ _ (fun X => IQuestion (a_name (rr X)) (a_type (rr X)) (class d))), (asked_flat _ _ (fun X => shown_probe (class d) X)).
      f_equal; symmetry; apply with_recs_map; reflexivity.
  - destruct D as [D1 D2 D3 _ _ _ _ _]. subst l. exists [], []. split; [|split; [|split; [constructor|repeat split; auto; intros x []]]].
    + split; cbn [with_expireall with_Q with_R with_now R]; [intros x; apply (after_none' _ _ _ _ Af)|]. intros x X EX.
      pose proof (probe_fate (e_now e) (disco d) qs (on Publish (rev (ready (hp (R d)) (probe_due (R d) qs (e_now e))) ++ qs Publish) (on Probing (if tvdiff (e_now e) (t_probe (R d)) <=? 0 then [] else qs Probing) (on Pause restA (on Now restN qs))))
        (R d) s' N restN A restA H D1 D3 E1 E2 Af) as K. rewrite La in K. apply K; [reflexivity|exact EX].
    + apply sp_query; auto. intros i I. unfold says in I. cbn [o_calls] in I. unfold queries_out in QO. destruct (_ && _).
      * destruct QO as (_ & (ks & -> & _) & _). rewrite items_query in I. apply in_app_or in I as [I|I]; apply in_map_iff in I as (y & <- & _); discriminate.
      * destruct QO as (-> & _). destruct I.
Qed.
