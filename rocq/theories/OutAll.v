(* What one call of mdnsd_out does. *)
From Verif Require Import Base Lemmas Hash HashProofs Wire Rec Qry Out RecInv RecSafe RecOps RecAddr OutSafe OutPub OutProbe OutExtra.

(* ------------------------------------------------------------------ *)
(* The answer section *)

(* The record after the replies l and the announcements P were sent *)
Definition sent_rec (t : tv) (l P : list nat) (x : nat) (X : mrec) : option mrec :=
  if mem x l then replied t X else if mem x P then published t X else Some X.

Definition announce_due (s : recs) (qs : queue -> list nat) (t : tv) : bool :=
  match qs Probing, qs Publish with
  | [], _ :: _ => tvdiff t (t_publish s) <=? 0
  | _, _ => false
  end.
Definition pause_due (s : recs) (qs : queue -> list nat) (t : tv) : bool :=
  match qs Pause with [] => false | _ => tvdiff t (t_pause s) <=? 0 end.

(* The first of rest does not fit *)
Definition blocked (h : heap) (frm : Z) (m : list mcall) (rest : list nat) : Prop :=
  match rest with [] => True | x :: _ => exists X, h x = Some X /\ frm <= mlen m + rr_len (rr X) end.

Lemma calls_of_app : forall cls h a b, calls_of cls h (a ++ b) = calls_of cls h a ++ calls_of cls h b.
Proof. intros. unfold calls_of. apply flat_map_app. Qed.
Lemma kept_of_app : forall h a b, kept_of h (a ++ b) = kept_of h a ++ kept_of h b.
Proof. intros. unfold kept_of. apply filter_app. Qed.
Lemma sent_of_in : forall dsc h l x, In x (sent_of dsc h l) -> In x l.
Proof. intros dsc h l x I. unfold sent_of in I. apply filter_In in I. apply I. Qed.

Lemma after_untouched : forall f h h' x, after f h h' -> (forall X, f x X = Some X) -> option_map nolink (h' x) = option_map nolink (h x).
Proof. intros f h h' x A F. rewrite (A x). destruct (h x) as [X|]; [rewrite F|]; reflexivity. Qed.

Lemma blocked_ext : forall h h' frm m rest, (forall x, In x rest -> option_map nolink (h' x) = option_map nolink (h x)) -> blocked h' frm m rest -> blocked h frm m rest.
Proof.
  intros h h' frm m [|x rest] E B; [exact I|]. destruct B as (X & EX & L). specialize (E x (or_introl eq_refl)). rewrite EX in E.
  destruct (h x) as [Y|] eqn:EY; [|discriminate]. exists Y. split; [exact EY|].
  assert (K : nolink X = nolink Y) by exact (f_equal (fun o => match o with Some y => y | None => nolink X end) E).
  apply nolink_fields in K as (K & _). rewrite <- K. exact L.
Qed.

Lemma uans_nil : forall p, filter p (@nil unicast) = [].
Proof. reflexivity. Qed.

Lemma out_now_publish : forall s qs t frm cls dsc, rinv s qs -> uans s = [] ->
  exists N restN P restP s2,
    let h := hp s in
    let snt := sent_of dsc h N in
    qs Now = N ++ restN /\ qs Publish = P ++ restP /\ (announce_due s qs t = false -> P = []) /\
    ('(s, m, seen, ret) <- r_out (qfuel s) s t frm cls dsc Now [] [] 0;; out_publish s t frm cls m seen ret) =
      Ok (s2, calls_of cls h (snt ++ P), fold_left answered_add (kept_of h (snt ++ P)) [], zlen (snt ++ P)) /\
    rinv s2 (on Publish (stays h P ++ restP) (on Now restN qs)) /\ after (sent_rec t snt P) h (hp s2) /\ fresh s2 = fresh s /\ uans s2 = [] /\
    t_pause s2 = t_pause s /\ t_probe s2 = t_probe s /\ conflicts s2 = conflicts s /\
    t_publish s2 = (if announce_due s qs t && negb (match stays h P ++ restP with [] => true | _ => false end) then (fst t + 2, snd t) else t_publish s) /\
    blocked h frm (calls_of cls h snt) restN /\ (announce_due s qs t = true -> blocked h frm (calls_of cls h (snt ++ P)) restP).
Proof.
  intros s qs t frm cls dsc H Hu.
  destruct (r_out_spec (qs Now) (qfuel s) s qs t frm cls dsc Now [] [] 0 H ltac:(discriminate) ltac:(discriminate) eq_refl (qok_fuel _ _ Now (ri_q _ _ H))) as (N & restN & s1 & En & E1 & H1 & A1 & [F1 T1 T2 T3 C1] & U1 & B1).
  cbv zeta in *. set (h := hp s) in *. set (snt := sent_of dsc h N) in *. rewrite Hu, uans_nil in U1. cbn [app] in E1, B1.
  assert (Hp1 : probing s1 = hd_error (qs Probing)).
  { pose proof (qk_chain _ _ (ri_q _ _ H1) Probing) as C. rewrite on_other in C by discriminate. exact (chain_hd _ _ _ C). }
  assert (Ha1 : a_publish s1 = hd_error (qs Publish)).
  { pose proof (qk_chain _ _ (ri_q _ _ H1) Publish) as C. rewrite on_other in C by discriminate. exact (chain_hd _ _ _ C). }
  assert (BN : blocked h frm (calls_of cls h snt) restN) by (destruct restN as [|x r]; [exact I|]; exact (B1 x r eq_refl)).
  assert (Due : announce_due s qs t = match probing s1, a_publish s1 with None, Some _ => tvdiff t (t_publish s1) <=? 0 | _, _ => false end).
  { unfold announce_due. rewrite Hp1, Ha1, T3. destruct (qs Probing), (qs Publish); reflexivity. }
  destruct (announce_due s qs t) eqn:Ad.
  - destruct (probing s1) as [p|] eqn:Ep; [discriminate|]. destruct (a_publish s1) as [pb|] eqn:Eb; [|discriminate].
    assert (Lf : (length (qs Publish) < qfuel s1)%nat) by (pose proof (qok_fuel _ _ Publish (ri_q _ _ H1)) as K; rewrite on_other in K by discriminate; exact K).
    assert (C : chain (hp s1) (a_publish s1) (qs Publish)) by (pose proof (qk_chain _ _ (ri_q _ _ H1) Publish) as C; rewrite on_other in C by discriminate; exact C).
    destruct (pub_loop_spec (qs Publish) (qfuel s1) s1 (on Now restN qs) t frm cls [] (a_publish s1) (calls_of cls h snt) (fold_left answered_add (kept_of h snt) []) (0 + zlen snt) H1) as (P & restP & s2 & Epb & E2 & H2 & A2 & [F2 T1' T2' T3' C2] & U2 & B2); [rewrite on_other by discriminate; reflexivity|exact C|exact Lf|].
    cbv zeta in *. cbn [app lastof rev hd_error] in E2, H2.
    assert (PN : forall x, In x (qs Publish) -> ~ In x snt).
    { intros x I K. apply sent_of_in in K. assert (K' : In x (qs Now)) by (rewrite En; apply in_or_app; left; exact K). pose proof (qk_disj _ _ (ri_q _ _ H) Publish Now x I K'). discriminate. }
    assert (XT : forall x, In x (qs Publish) -> option_map nolink (hp s1 x) = option_map nolink (h x)).
    { intros x I. apply (after_untouched _ _ _ _ A1). intros X. unfold upon. rewrite (proj2 (mem_false x snt)) by (apply PN; exact I). reflexivity. }
    assert (XP : forall x, In x P -> option_map nolink (hp s1 x) = option_map nolink (h x)) by (intros x I; apply XT; rewrite Epb; apply in_or_app; left; exact I).
    assert (Q1 : calls_of cls (hp s1) P = calls_of cls h P) by (apply flat_ext; [apply answer_calls_nolink|exact XP]).
    assert (Q2 : kept_of (hp s1) P = kept_of h P) by (apply holds_ext; [intros X Y; apply tdone_nolink|exact XP]).
    assert (Q3 : stays (hp s1) P = stays h P) by (apply holds_ext; [intros X Y; apply stays_nolink|exact XP]).
    rewrite Q1, Q2 in E2. rewrite Q3 in H2. rewrite Q1 in B2. rewrite U1, uans_nil in U2.
    assert (Hd2 : a_publish s2 = hd_error (stays h P ++ restP)).
    { pose proof (qk_chain _ _ (ri_q _ _ H2) Publish) as K. rewrite on_same in K. exact (chain_hd _ _ _ K). }
    set (s3 := match a_publish s2 with Some _ => set_tpublish s2 (fst t + 2, snd t) | None => s2 end).
    assert (H3 : rinv s3 (on Publish (stays h P ++ restP) (on Now restN qs))).
    { unfold s3. destruct (a_publish s2); [|exact H2]. eapply rinv_other; [exact H2|reflexivity..|intros []; reflexivity]. }
    assert (F3 : hp s3 = hp s2 /\ fresh s3 = fresh s2 /\ uans s3 = uans s2 /\ t_pause s3 = t_pause s2 /\ t_probe s3 = t_probe s2 /\ conflicts s3 = conflicts s2) by (unfold s3; destruct (a_publish s2); auto 10).
    destruct F3 as (G1 & G2 & G3 & G4 & G5 & G6).
    exists N, restN, P, restP, s3. cbv zeta. fold h. fold snt. split; [exact En|]. split; [exact Epb|]. split; [discriminate|].
    split. { rewrite E1. cbn [bind]. unfold out_publish. rewrite Ep, Eb. rewrite <- Due. rewrite <- Eb. rewrite E2. cbn [bind]. fold s3.
      rewrite calls_of_app, kept_of_app, fold_left_app, zlen_app. replace (0 + zlen snt + zlen P) with (zlen snt + zlen P) by lia. reflexivity. }
    split; [exact H3|]. split.
    { intros x. rewrite G1, (A2 x). unfold upon, sent_rec. specialize (A1 x). unfold upon in A1. destruct (mem x P) eqn:MP.
      - apply mem_iff in MP. pose proof (XP x MP) as K. assert (Nx : mem x snt = false) by (apply mem_false; apply PN; rewrite Epb; apply in_or_app; left; exact MP).
        destruct (hp s1 x) as [Y|], (h x) as [X|]; cbn [option_map] in K; try discriminate; [|reflexivity]. rewrite Nx.
        assert (K' : nolink Y = nolink X) by exact (f_equal (fun o => match o with Some y => y | None => nolink X end) K).
        unfold published, tdone. pose proof K' as K2. apply nolink_fields in K2 as (K2 & _ & _ & K3 & _). rewrite K2, K3. destruct (a_ttl (rr X) =? 0); [reflexivity|]. cbn [option_map]. f_equal.
        exact (f_equal (fun z => set_sent (set_tries z (tries X + 1)) t) K').
      - destruct (hp s1 x) as [Y|] eqn:EY; (destruct (h x) as [X|]; [|try discriminate A1; reflexivity]); exact A1. }
    split; [congruence|]. split; [congruence|]. split; [congruence|]. split; [congruence|]. split; [congruence|].
    split. { unfold s3. rewrite Hd2. destruct (stays h P ++ restP); cbn [hd_error negb andb]; [congruence|reflexivity]. }
    split; [exact BN|]. intros _. rewrite calls_of_app. destruct restP as [|x r]; [exact I|]. destruct (B2 x r eq_refl) as (X & EX & L).
    eapply (blocked_ext _ (hp s1)); [intros y Iy; apply XT; rewrite Epb; apply in_or_app; right; exact Iy|]. exists X. split; [exact EX|exact L].
  - exists N, restN, [], (qs Publish), s1. cbv zeta. fold h. fold snt. rewrite app_nil_r. cbn [stays filter app andb].
    split; [exact En|]. split; [reflexivity|]. split; [reflexivity|].
    split. { rewrite E1. cbn [bind]. unfold out_publish. rewrite Z.add_0_l. destruct (probing s1), (a_publish s1); try reflexivity. rewrite <- Due. reflexivity. }
    split. { eapply rinv_ext; [exact H1|]. intros q. destruct (queue_dec q Publish) as [->|D]; [rewrite on_same, on_other by discriminate; reflexivity|apply on_other; exact D]. }
    split. { intros x. rewrite (A1 x). unfold upon, sent_rec. destruct (h x); [|reflexivity]. destruct (mem x snt); reflexivity. }
    split; [exact F1|]. split; [exact U1|]. repeat split; auto. discriminate.
Qed.

Lemma answered_add_in : forall l seen x, In x (fold_left answered_add l seen) -> In x seen \/ In x l.
Proof.
  induction l as [|y l IH]; intros seen x I; [auto|]. cbn [fold_left] in I. apply IH in I as [I|I]; [|right; right; exact I].
  unfold answered_add in I. destruct (length seen <? 64)%nat; [|auto]. apply in_app_or in I as [I|[->|[]]]; [auto|right; left; reflexivity].
Qed.

Lemma nolink_replied : forall t X Y, nolink X = nolink Y -> option_map nolink (replied t X) = option_map nolink (replied t Y).
Proof.
  intros t X Y K. unfold replied, tdone. pose proof K as K2. apply nolink_fields in K2 as (K2 & _). rewrite K2. destruct (a_ttl (rr Y) =? 0); [reflexivity|]. cbn [option_map]. f_equal.
  exact (f_equal (fun z => set_modified (set_sent z t) false) K).
Qed.

Lemma mem_app : forall x a b, mem x (a ++ b) = mem x a || mem x b.
Proof. intros x a b. unfold mem. apply existsb_app. Qed.

Lemma out_answers : forall s qs t frm cls dsc, rinv s qs -> uans s = [] ->
  exists N restN P restP A restA s2 s3 added,
    let h := hp s in
    let now := sent_of dsc h N in
    let late := sent_of dsc h A in
    let all := now ++ P ++ late in
    let seen := fold_left answered_add (kept_of h all) [] in
    qs Now = N ++ restN /\ qs Publish = P ++ restP /\ qs Pause = A ++ restA /\ (announce_due s qs t = false -> P = []) /\ (pause_due s qs t = false -> A = []) /\
    ('(s, m, seen, ret) <- r_out (qfuel s) s t frm cls dsc Now [] [] 0;; out_publish s t frm cls m seen ret) =
      Ok (s2, calls_of cls h (now ++ P), fold_left answered_add (kept_of h (now ++ P)) [], zlen (now ++ P)) /\
    rinv s2 (on Publish (stays h P ++ restP) (on Now restN qs)) /\ after (sent_rec t now P) h (hp s2) /\
    match a_pause s2 with
    | Some _ => if tvdiff t (t_pause s2) <=? 0 then r_out (qfuel s2) s2 t frm cls dsc Pause (calls_of cls h (now ++ P)) (fold_left answered_add (kept_of h (now ++ P)) []) (zlen (now ++ P))
                else Ok (s2, calls_of cls h (now ++ P), fold_left answered_add (kept_of h (now ++ P)) [], zlen (now ++ P))
    | None => Ok (s2, calls_of cls h (now ++ P), fold_left answered_add (kept_of h (now ++ P)) [], zlen (now ++ P))
    end = Ok (s3, calls_of cls h all, seen, zlen all) /\
    rinv s3 (on Pause restA (on Publish (stays h P ++ restP) (on Now restN qs))) /\ after (sent_rec t (now ++ late) P) h (hp s3) /\
    fresh s2 = fresh s /\ fresh s3 = fresh s /\ uans s2 = [] /\ uans s3 = [] /\ t_pause s3 = t_pause s /\ t_probe s3 = t_probe s /\ conflicts s2 = conflicts s /\ conflicts s3 = conflicts s /\
    t_publish s3 = (if announce_due s qs t && negb (match stays h P ++ restP with [] => true | _ => false end) then (fst t + 2, snd t) else t_publish s) /\
    (exists seen', additionals s3 frm cls (calls_of cls h all) seen seen = Ok (calls_of cls h all ++ extras cls (hp s3) added, seen')) /\
    grows s3 frm cls (fun _ X => exists a A, In a all /\ hp s3 a = Some A /\ accompanies s3 A X) (calls_of cls h all) seen (calls_of cls h all ++ extras cls (hp s3) added) (fold_left answered_add added seen) added /\
    blocked h frm (calls_of cls h now) restN /\ (announce_due s qs t = true -> blocked h frm (calls_of cls h (now ++ P)) restP) /\
    (pause_due s qs t = true -> blocked h frm (calls_of cls h all) restA).
Proof.
  intros s qs t frm cls dsc H Hu. destruct (out_now_publish s qs t frm cls dsc H Hu) as (N & restN & P & restP & s2 & K). cbv zeta in K.
  destruct K as (En & Ep & Dp & E2 & H2 & A2 & F2 & U2 & T1 & T2 & C2 & T3 & B1 & B2).
  set (h := hp s) in *. set (nw := sent_of dsc h N) in *. set (qs2 := on Publish (stays h P ++ restP) (on Now restN qs)) in *.
  assert (Q2 : qs2 Pause = qs Pause) by (unfold qs2; rewrite !on_other by discriminate; reflexivity).
  assert (Ha2 : a_pause s2 = hd_error (qs Pause)).
  { pose proof (qk_chain _ _ (ri_q _ _ H2) Pause) as C. rewrite Q2 in C. exact (chain_hd _ _ _ C). }
  assert (PN : forall x, In x (qs Pause) -> ~ In x nw /\ ~ In x P).
  { intros x I. split; intros K.
    - apply sent_of_in in K. assert (K' : In x (qs Now)) by (rewrite En; apply in_or_app; left; exact K). pose proof (qk_disj _ _ (ri_q _ _ H) Pause Now x I K'). discriminate.
    - assert (K' : In x (qs Publish)) by (rewrite Ep; apply in_or_app; left; exact K). pose proof (qk_disj _ _ (ri_q _ _ H) Pause Publish x I K'). discriminate. }
  assert (XT : forall x, In x (qs Pause) -> option_map nolink (hp s2 x) = option_map nolink (h x)).
  { intros x I. apply (after_untouched _ _ _ _ A2). intros X. unfold sent_rec. destruct (PN x I) as [P1 P2]. rewrite (proj2 (mem_false x nw) P1), (proj2 (mem_false x P) P2). reflexivity. }
  assert (S : exists A restA s3,
    let late := sent_of dsc h A in
    let all := nw ++ P ++ late in
    qs Pause = A ++ restA /\ (pause_due s qs t = false -> A = []) /\
    match a_pause s2 with
    | Some _ => if tvdiff t (t_pause s2) <=? 0 then r_out (qfuel s2) s2 t frm cls dsc Pause (calls_of cls h (nw ++ P)) (fold_left answered_add (kept_of h (nw ++ P)) []) (zlen (nw ++ P))
                else Ok (s2, calls_of cls h (nw ++ P), fold_left answered_add (kept_of h (nw ++ P)) [], zlen (nw ++ P))
    | None => Ok (s2, calls_of cls h (nw ++ P), fold_left answered_add (kept_of h (nw ++ P)) [], zlen (nw ++ P))
    end = Ok (s3, calls_of cls h all, fold_left answered_add (kept_of h all) [], zlen all) /\
    rinv s3 (on Pause restA qs2) /\ after (sent_rec t (nw ++ late) P) h (hp s3) /\ fresh s3 = fresh s /\ uans s3 = [] /\ t_pause s3 = t_pause s2 /\ t_probe s3 = t_probe s2 /\
    conflicts s3 = conflicts s2 /\ t_publish s3 = t_publish s2 /\ (pause_due s qs t = true -> blocked h frm (calls_of cls h all) restA)).
  { unfold pause_due. rewrite Ha2, T1.
    assert (Nop : exists A restA s3,
      qs Pause = A ++ restA /\ A = [] /\ s3 = s2 /\
      rinv s3 (on Pause restA qs2) /\ after (sent_rec t (nw ++ sent_of dsc h A) P) h (hp s3)).
    { exists [], (qs Pause), s2. split; [reflexivity|]. split; [reflexivity|]. split; [reflexivity|]. split.
      - eapply rinv_ext; [exact H2|]. intros q. destruct (queue_dec q Pause) as [->|D]; [rewrite on_same; congruence|apply on_other; exact D].
      - cbn [sent_of filter]. rewrite app_nil_r. exact A2. }
    destruct (qs Pause) as [|x0 l0] eqn:Eps.
    - cbn [hd_error]. destruct Nop as (A & restA & s3 & N1 & -> & -> & N2 & N3). exists [], restA, s2. cbv zeta. cbn [sent_of filter app] in *. rewrite !app_nil_r in *.
      split; [exact N1|]. split; [auto|]. split; [reflexivity|]. split; [exact N2|]. split; [exact N3|]. repeat split; auto. discriminate.
    - cbn [hd_error]. destruct (tvdiff t (t_pause s) <=? 0).
      2:{ destruct Nop as (A & restA & s3 & N1 & -> & -> & N2 & N3). exists [], restA, s2. cbv zeta. cbn [sent_of filter app] in *. rewrite !app_nil_r in *.
          split; [exact N1|]. split; [auto|]. split; [reflexivity|]. split; [exact N2|]. split; [exact N3|]. repeat split; auto. discriminate. }
      clear Nop. rewrite <- Eps in *. assert (Lf : (length (qs Pause) < qfuel s2)%nat) by (rewrite <- Q2; apply (qok_fuel _ _ Pause (ri_q _ _ H2))).
      destruct (r_out_spec (qs Pause) (qfuel s2) s2 qs2 t frm cls dsc Pause (calls_of cls h (nw ++ P)) (fold_left answered_add (kept_of h (nw ++ P)) []) (zlen (nw ++ P)) H2 ltac:(discriminate) ltac:(discriminate) Q2 Lf) as (A & restA & s3 & Ea & E3 & H3 & A3 & [F3 T1' T2' T3' C3] & U3 & B3). cbv zeta in *.
      assert (XA : forall x, In x A -> option_map nolink (hp s2 x) = option_map nolink (h x)) by (intros x I; apply XT; rewrite Ea; apply in_or_app; left; exact I).
      assert (G0 : sent_of dsc (hp s2) A = sent_of dsc h A) by (apply holds_ext; [intros X Y; apply skips_nolink|exact XA]).
      assert (XL : forall x, In x (sent_of dsc h A) -> option_map nolink (hp s2 x) = option_map nolink (h x)) by (intros x I; apply XA; eapply sent_of_in; exact I).
      assert (G1 : calls_of cls (hp s2) (sent_of dsc h A) = calls_of cls h (sent_of dsc h A)) by (apply flat_ext; [apply answer_calls_nolink|exact XL]).
      assert (G2 : kept_of (hp s2) (sent_of dsc h A) = kept_of h (sent_of dsc h A)) by (apply holds_ext; [intros X Y; apply tdone_nolink|exact XL]).
      rewrite G0 in *. rewrite G1 in *. rewrite G2 in *. set (late := sent_of dsc h A) in *. rewrite U2, uans_nil in U3.
      exists A, restA, s3. cbv zeta. fold late. split; [exact Ea|]. split; [discriminate|]. split.
      { rewrite E3. rewrite !app_assoc. rewrite (calls_of_app _ _ (nw ++ P)), (kept_of_app _ (nw ++ P)), fold_left_app, (zlen_app _ (nw ++ P)). reflexivity. }
      split; [exact H3|]. split.
      { intros x. pose proof (A3 x) as K3. pose proof (A2 x) as K2. pose proof (XL x) as K. unfold upon, sent_rec in *. cbn beta in *. rewrite K3. clear K3.
        destruct (mem x late) eqn:ML.
        - pose proof (proj1 (mem_iff _ _) ML) as ML'. specialize (K ML'). destruct (hp s2 x) as [Y|], (h x) as [X|]; cbn [option_map] in K; try discriminate; [|reflexivity].
          rewrite mem_app, ML, orb_true_r. apply nolink_replied. exact (f_equal (fun o => match o with Some y => y | None => nolink X end) K).
        - destruct (hp s2 x) as [Y|]; (destruct (h x) as [X|]; [|try discriminate K2; reflexivity]); rewrite mem_app, ML, orb_false_r; exact K2. }
      split; [congruence|]. split; [exact U3|]. split; [congruence|]. split; [exact T2'|]. split; [exact C3|]. split; [exact T3'|]. intros _.
      destruct restA as [|x r]; [exact I|]. destruct (B3 x r eq_refl) as (X & EX & L). eapply (blocked_ext _ (hp s2)); [intros y Iy; apply XT; rewrite Ea; apply in_or_app; right; exact Iy|].
      exists X. split; [exact EX|]. rewrite !app_assoc, (calls_of_app _ _ (nw ++ P)). exact L. }
  destruct S as (A & restA & s3 & Ea & Da & E3 & H3 & A3 & F3 & U3 & T1' & T2' & C3 & T3' & B3). cbv zeta in E3, A3, B3.
  set (late := sent_of dsc h A) in *. set (all := nw ++ P ++ late) in *. set (seen := fold_left answered_add (kept_of h all) []) in *.
  assert (Sl : forall x, In x seen -> In x all /\ hp s3 x <> None).
  { intros x I. apply answered_add_in in I as [[]|I]. unfold kept_of in I. apply filter_In in I as [I K]. split; [exact I|]. unfold holds in K. specialize (A3 x).
    destruct (h x) as [X|]; [|discriminate]. unfold sent_rec, replied, published in A3. apply negb_true_iff in K. rewrite K in A3. intros Z. rewrite Z in A3.
    destruct (mem x (nw ++ late)); [discriminate|]. destruct (mem x P); discriminate. }
  destruct (additionals_spec seen s3 frm cls (calls_of cls h all) seen (ri_p _ _ H3)) as (m4 & seen4 & added & E4 & G4); [intros x I; apply Sl; exact I|].
  pose proof G4 as G4'. destruct G4' as (M4 & S4 & _). subst m4 seen4.
  exists N, restN, P, restP, A, restA, s2, s3, added. cbv zeta. fold h. fold nw. fold late. fold all. fold seen.
  split; [exact En|]. split; [exact Ep|]. split; [exact Ea|]. split; [exact Dp|]. split; [exact Da|]. split; [exact E2|]. split; [exact H2|]. split; [exact A2|]. split; [exact E3|].
  split; [exact H3|]. split; [exact A3|]. split; [congruence|]. split; [congruence|]. split; [exact U2|]. split; [exact U3|]. split; [congruence|]. split; [congruence|]. split; [congruence|]. split; [congruence|]. split; [congruence|].
  split; [eauto|]. split; [|auto]. eapply grows_impl; [|exact G4]. intros x X EX (a & B & I & EB & K). exists a, B. split; [apply Sl; exact I|auto].
Qed.
