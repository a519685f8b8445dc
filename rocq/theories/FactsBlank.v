(* A shared record whose data was never set is queued by none of the calls but
   mdnsd_sleep, mdnsd_shutdown and the calls that set an address. *)
From Verif Require Import Base Lemmas Hash HashProofs Wire Rec Qry Out In Api RecInv RecSafe RecOps RecAddr OutSafe OutExtra QryInv QryOps CacheOps QryReg QryLoop InSafe InLoop InResp OutAll OutSpec Shut DaemonInv SpecDaemon SpecLife FactsCalls FactsItems FactsEvolve FactsIn FactsOut FactsFrame FactsFate FactsLife.

Definition dull (X : mrec) : Prop := unique X = 0 /\ tries X < 4.
(* T: the records whose data may be set *)
Definition lull (T : nat -> Prop) (s : recs) (qs : queue -> list nat) (s' : recs) (qs' : queue -> list nat) : Prop :=
  (fresh s <= fresh s')%nat /\
  forall x, (x < fresh s)%nat -> ~ T x -> match hp s x, hp s' x with
    | None, Some _ => False
    | Some X, Some Y => dull X -> dull Y /\ forall k, In x (qs' k) -> In x (qs k)
    | _, None => True
    end.

Lemma lull_refl : forall T s qs, lull T s qs s qs.
Proof. intros T s qs. split; [apply le_n|]. intros x _ _. destruct (hp s x); auto. Qed.
Lemma lull_trans : forall T s qs s1 qs1 s2 qs2, lull T s qs s1 qs1 -> lull T s1 qs1 s2 qs2 -> lull T s qs s2 qs2.
Proof.
  intros T s qs s1 qs1 s2 qs2 [F1 A] [F2 B]. split; [lia|]. intros x L N. specialize (A x L N). specialize (B x ltac:(lia) N).
  destruct (hp s x) as [X|], (hp s1 x) as [Y|], (hp s2 x) as [Z|]; auto; try contradiction. intros D. destruct (A D) as [D1 K1]. destruct (B D1) as [D2 K2]. split; [exact D2|]. auto.
Qed.
Lemma lull_but : forall (T : nat -> Prop) s qs s' qs' r, fresh s' = fresh s -> hbut r (hp s) (hp s') -> (forall k x, x <> r -> In x (qs' k) -> In x (qs k)) ->
  (~ T r -> match hp s r, hp s' r with None, Some _ => False | Some X, Some Y => dull X -> dull Y /\ forall k, In r (qs' k) -> In r (qs k) | _, None => True end) -> lull T s qs s' qs'.
Proof.
  intros T s qs s' qs' r F B Q K. split; [lia|]. intros x L N. destruct (Nat.eq_dec x r) as [->|D]; [exact (K N)|]. specialize (B x D).
  destruct (hp s x) as [X|], (hp s' x) as [Y|]; try discriminate; auto.
  assert (NY : nolink Y = nolink X) by (symmetry; exact (f_equal (fun o => match o with Some y => y | None => nolink X end) B)).
  apply nolink_fields in NY as (N1 & N2 & N3 & N4 & N5 & N6). unfold dull. rewrite N2, N4. intros Dl. split; [exact Dl|]. intros k. apply Q. exact D.
Qed.

Lemma enq_back : forall k r qs, (forall k, NoDup (qs k)) -> forall j x, x <> r -> In x (enq k r qs j) -> In x (qs j).
Proof. intros k r qs N j x D I. apply enq_in in I; auto. destruct I as [[E _]|[_ I]]; [contradiction|exact I]. Qed.
Lemma sent_back : forall s qs r X, rinv s qs -> forall j x, x <> r -> In x (sent_queues X r qs j) -> In x (qs j).
Proof. intros s qs r X H j x D. unfold sent_queues. destruct (send_queue X); [|auto]. apply enq_back; [exact (qk_nodup _ _ (ri_q _ _ H))|exact D]. Qed.
Lemma dull_sent : forall X r qs, dull X -> sent_queues X r qs = qs.
Proof. intros X r qs [_ D]. unfold sent_queues. destruct (send_queue X) as [k|] eqn:S; [|reflexivity]. destruct (send_queue_live X k S) as (_ & _ & T). lia. Qed.
Lemma probing_back : forall l qs, (forall x, In x l -> In x (qs Probing)) -> forall k x, In x (on Probing l qs k) -> In x (qs k).
Proof. intros l qs K k x I. destruct k; cbn [on queue_eqb] in I; auto. Qed.
Lemma remove1_back : forall l r x, In x (remove1 r l) -> In x l.
Proof. intros l r x I. apply remove1_in in I. exact I. Qed.

Lemma done_lull : forall T s qs t r X, rinv s qs -> hp s r = Some X -> exists s' qs', mdnsd_done s t r = Ok s' /\ rinv s' qs' /\ lull T s qs s' qs'.
Proof.
  intros T s qs t r X H E. destruct (probes X) eqn:P.
  - destruct (mdnsd_done_probing s qs t r X H E P) as (s' & E' & H' & N & B & F & _). exists s'. eexists. split; [exact E'|]. split; [exact H'|].
    eapply lull_but; [exact F|exact B| |]; [|rewrite E, N; auto]. intros k x _. apply probing_back. apply remove1_back.
  - destruct (mdnsd_done_sends s qs t r X H E P) as (s' & E' & H' & B & (Y & EY & NY) & F & _). exists s', (sent_queues X r qs). split; [exact E'|]. split; [exact H'|].
    eapply lull_but; [exact F|exact B|intros k x; apply (sent_back s qs r X H)|]. rewrite E, EY. apply nolink_fields in NY as (N1 & N2 & N3 & N4 & N5 & N6).
    cbn [RecOps.gone set_rr rr unique tries] in *. intros _ D. split; [unfold dull in *; rewrite N2, N4; exact D|]. rewrite (dull_sent X r qs D). auto.
Qed.

Lemma set_lull : forall (T : nat -> Prop) s qs t r f X, rinv s qs -> keeps_id f -> hp s r = Some X -> T r ->
  exists s' qs', mdnsd_set s t r f = Ok s' /\ rinv s' qs' /\ lull T s qs s' qs'.
Proof.
  intros T s qs t r f X H Kf E Tr. unfold mdnsd_set, with_rr. rewrite (hget_some _ _ _ E). cbn [bind].
  set (X1 := set_rr X (f (rr X))). set (s1 := set_hp s (hset (hp s) r X1)). destruct (Kf (rr X)) as (K1 & K2 & K3).
  assert (H1 : rinv s1 qs).
  { eapply rinv_set; [exact H|exact E|reflexivity|exact K1|]. destruct (ri_u _ _ H r X E) as [U1 U2 U3 U4 U5 U6 U7]. split; assumption. }
  assert (E1 : hp s1 r = Some X1) by apply hset_same.
  assert (B0 : hbut r (hp s) (hp s1)) by apply hbut_set.
  destruct (probes X) eqn:P.
  - change (probes X1 = true) in P. rewrite (r_publish_probes s1 t r X1 E1 P).
    exists (set_hp s1 (hset (hp s1) r (set_modified X1 true))), qs. split; [reflexivity|].
    assert (B : hbut r (hp s) (hp (set_hp s1 (hset (hp s1) r (set_modified X1 true))))) by (eapply hbut_trans; [exact B0|apply hbut_set]).
    split. { eapply rinv_set; [exact H1|exact E1|reflexivity|reflexivity|]. destruct (ri_u _ _ H1 r X1 E1) as [U1 U2 U3 U4 U5 U6 U7]. split; assumption. }
    eapply (lull_but T s qs _ qs r); [reflexivity|exact B|auto|contradiction].
  - change (probes X1 = false) in P. destruct (r_publish_full s1 qs t r X1 H1 E1 P) as (s' & E' & H' & [(F1 & F2 & F3 & F4 & F5 & F6 & F7) F]).
    rewrite E'. cbn [announced set_tpublish set_hp hp fresh] in F, F1.
    assert (B : hbut r (hp s) (hp s')).
    { intros y D. rewrite <- (F y). cbn [s1 set_hp hp]. rewrite !hset_other by exact D. reflexivity. }
    exists s', (enq Publish r qs). split; [reflexivity|]. split; [exact H'|].
    apply (lull_but T s qs _ _ r F1 B); [|contradiction]. intros k x. apply enq_back. exact (qk_nodup _ _ (ri_q _ _ H)).
Qed.

Lemma question_lull : forall d me q an qs s', rinv (R d) qs ->
  let l := InLoop.asked d q in
  after (vanish (loses me q an (hp (R d)) l)) (hp (R d)) (hp s') -> fresh s' = fresh (R d) ->
  lull none (R d) qs s' (fold_left (qmove me q an (hp (R d))) l qs).
Proof.
  intros d me q an qs s' H l A F. split; [lia|]. intros x L _. pose proof (A x) as Ax. destruct (hp (R d) x) as [X|] eqn:EX; [|destruct (hp s' x); [discriminate|exact I]].
  destruct (hp s' x) as [Y|] eqn:EY; [|exact I].
  unfold vanish, upon in Ax. destruct (mem x (loses me q an (hp (R d)) l)) eqn:M; [discriminate|].
  assert (N : nolink Y = nolink X) by exact (f_equal (fun o => match o with Some y => y | None => nolink X end) Ax).
  pose proof (qmoves_in me q an (hp (R d)) l qs) as Q. assert (Nl : NoDup l) by (apply asked_nodup; apply H). pose proof (qk_nodup _ _ (ri_q _ _ H)) as ND.
  assert (G : goes me q an (hp (R d)) l x = None \/ exists k, goes me q an (hp (R d)) l x = Some (Some k) /\ send_queue X = Some k).
  { unfold goes. destruct (mem x l) eqn:Ml; [|auto]. rewrite EX. unfold where_to. unfold loses in M. destruct (is_disco q); [destruct (send_queue X); eauto|].
    destruct (yields me q an X) eqn:Yd.
    - exfalso. apply mem_false in M. apply M. unfold yielding. apply filter_In. split; [apply mem_iff; exact Ml|]. unfold holds. rewrite EX. exact Yd.
    - destruct (InSafe.replies q an X); [|auto]. destruct (send_queue X); eauto. }
  apply nolink_fields in N as (N1 & N2 & N3 & N4 & N5 & N6). unfold dull. rewrite N2, N4. intros D. split; [exact D|]. intros k I. apply Q in I; auto.
  destruct G as [G|(j & _ & S)]; [rewrite G in I; exact I|]. destruct (send_queue_live X j S) as (_ & _ & T). lia.
Qed.

Lemma questions_lull : forall qd d e from did id an qs, rinv (R d) qs -> (did = true -> ifs d = view d e) ->
  exists s' i tm L b qs', questions d e from did id qd an = Ok (answered d s' i tm (received d ++ L) b) /\ rinv s' qs' /\ lull none (R d) qs s' qs'.
Proof.
  induction qd as [|q qd IH]; intros d e from did id an qs H D.
  - cbn [questions]. exists (R d), (ifs d), (ifs_time d), [], (disco d), qs. rewrite app_nil_r. split; [destruct d; reflexivity|]. split; [exact H|apply lull_refl].
  - destruct (question_spec d e from did id q qd an qs H D) as (s1 & i1 & tm1 & L1 & did1 & E1 & Ii & Di & H1 & A1 & F1 & U1 & _). cbv zeta in *. rewrite E1.
    pose proof (question_lull d _ q an qs s1 H A1 F1) as O1. set (d1 := answered d s1 i1 tm1 (received d ++ L1) _) in *.
    assert (V1 : view d1 e = view d e).
    { unfold view, d1. destruct (e_ifs e) as [l|] eqn:Ee; [reflexivity|]. cbn [answered ifs]. destruct Ii as [->| ->]; [reflexivity|]. unfold view. rewrite Ee. reflexivity. }
    assert (D1 : did1 = true -> ifs d1 = view d1 e) by (intros K; rewrite V1; apply Di; exact K).
    destruct (IH d1 e from did1 id an _ H1 D1) as (s2 & i2 & tm2 & L2 & b2 & qs2 & E2 & H2 & O2). cbn [d1 answered R received] in *.
    exists s2, i2, tm2, (L1 ++ L2), b2, qs2. split; [rewrite E2, app_assoc; reflexivity|]. split; [exact H2|]. eapply lull_trans; eassumption.
Qed.

Lemma given_up_lull : forall T s qs s' r X, rinv s qs -> given_up s s' r X ->
  lull T s qs s' (if probes X then on Probing (remove1 r (qs Probing)) qs else sent_queues X r qs).
Proof.
  intros T s qs s' r X H (E & B & G & F & _). destruct (probes X) eqn:P; destruct G as [G _].
  - eapply lull_but; [exact F|exact B| |]; [|rewrite E, G; auto]. intros k x _. apply probing_back. apply remove1_back.
  - destruct G as (Y & EY & NY). eapply lull_but; [exact F|exact B|intros k x; apply (sent_back s qs r X H)|]. rewrite E, EY. apply nolink_fields in NY as (N1 & N2 & N3 & N4 & N5 & N6).
    cbn [RecOps.gone set_rr rr unique tries] in *. intros _ D. split; [unfold dull in *; rewrite N2, N4; exact D|]. rewrite (dull_sent X r qs D). auto.
Qed.

Lemma responses_lull : forall an d e from did qs, rinv (R d) qs -> qinv (Q d) -> 0 <= fst (now d) -> Forall wf_resource an -> (did = true -> ifs d = view d e) ->
  exists s' q' i tm L qs', responses d e from did an = Ok (heard d s' q' i tm (received d ++ L)) /\ rinv s' qs' /\ lull none (R d) qs s' qs'.
Proof.
  induction an as [|a an IH]; intros d e from did qs H Hq N W D.
  - cbn [responses]. exists (R d), (Q d), (ifs d), (ifs_time d), [], qs. rewrite app_nil_r. split; [destruct d; reflexivity|]. split; [exact H|apply lull_refl].
  - apply Forall_cons_iff in W as [Wa W].
    destruct (response_spec d e from did a an qs H Hq N Wa D) as (s1 & q1 & i1 & tm1 & L1 & did1 & qs1 & T1 & E1 & Ii & Di & H1 & Hq1 & Sh1 & G1 & _). cbv zeta in G1.
    assert (O1 : lull none (R d) qs s1 qs1).
    { destruct (contested d a) as [[r X]|]; [|destruct G1 as [-> ->]; apply lull_refl]. destruct (is_me d e from); [destruct G1 as [-> ->]; apply lull_refl|].
      destruct G1 as [G1 ->]. apply given_up_lull; assumption. }
    rewrite E1. set (d1 := heard d s1 q1 i1 tm1 (received d ++ L1)) in *.
    assert (V1 : view d1 e = view d e).
    { unfold view, d1. destruct (e_ifs e) as [l|] eqn:Ee; [reflexivity|]. cbn [heard ifs]. destruct Ii as [->| ->]; [reflexivity|]. unfold view. rewrite Ee. reflexivity. }
    assert (D1 : did1 = true -> ifs d1 = view d1 e) by (intros K; rewrite V1; apply Di; exact K).
    destruct (IH d1 e from did1 qs1 H1 Hq1 N W D1) as (s2 & q2 & i2 & tm2 & L2 & qs2 & E2 & H2 & O2). cbn [d1 heard R received] in *.
    exists s2, q2, i2, tm2, (L1 ++ L2), qs2. split; [rewrite E2, app_assoc; reflexivity|]. split; [exact H2|]. eapply lull_trans; eassumption.
Qed.

Lemma in_lull : forall d e m from qs, rinv (R d) qs -> calm d -> 0 <= fst (e_now e) -> wf_message m ->
  exists d' n qs', mdnsd_in d e m from = Ok (d', n) /\ rinv (R d') qs' /\ lull none (R d) qs (R d') qs'.
Proof.
  intros d e m from qs H C N W. destruct (mdnsd_in_spec d e m from qs H C N W) as (d' & n & qs' & E & A & _). rewrite E. exists d', n. destruct C as (C1 & _).
  destruct A as [?|i tm ? ? ?|i0 tm0 d' qs' X1 X2 X3 X4 E2|i0 tm0 d' qs' X1 X2 X3 X4 E2].
  - exists qs. split; [reflexivity|]. split; [exact H|apply lull_refl].
  - exists qs. split; [reflexivity|]. split; [exact H|apply lull_refl].
  - destruct (questions_lull (m_qd m) (into (with_now d (e_now e)) (R d) i0 tm0 (received d)) e from false (m_id m) (m_an m) qs H ltac:(discriminate)) as (s' & i & tm & L & b & qs2 & E3 & H2 & O2).
    rewrite E2 in E3. injection E3 as ->. exists qs2. split; [reflexivity|]. split; [exact H2|exact O2].
  - destruct (responses_lull (m_an m) (into (with_now d (e_now e)) (R d) i0 tm0 (received d)) e from false qs H C1 N W ltac:(discriminate)) as (s' & q' & i & tm & L & qs2 & E3 & H2 & O2).
    rewrite E2 in E3. injection E3 as ->. exists qs2. split; [reflexivity|]. split; [exact H2|exact O2].
Qed.

(* ------------------------------------------------------------------ *)

Lemma step_lull : forall d e o d' x qs, rinv (R d) qs -> calm d -> legal d e o -> o <> OShutdown -> (o = OSleep -> pending d) -> o <> OOut -> o <> OClear -> step d e o = Ok (d', x) ->
  exists qs', rinv (R d') qs' /\ lull (fun r => sets o r) (R d) qs (R d') qs'.
Proof.
  intros d e o d' x qs H C [N L] Ns Np No Nc E.
  assert (Rset : forall r f, live d r -> keeps_id f -> sets o r -> on_recs d (mdnsd_set (R d) (now d) r f) = Ok (d', x) -> exists qs', rinv (R d') qs' /\ lull (fun r => sets o r) (R d) qs (R d') qs').
  { intros r f Lr K T E1. apply live_some in Lr as (X & EX). destruct (set_lull (fun r => sets o r) (R d) qs (now d) r f X H K EX T) as (s' & qs' & E' & H' & O').
    unfold on_recs in E1. rewrite E' in E1. injection E1 as <- _. eauto. }
  assert (Rsame : R d' = R d -> exists qs', rinv (R d') qs' /\ lull (fun r => sets o r) (R d) qs (R d') qs').
  { intros ->. exists qs. split; [exact H|apply lull_refl]. }
  assert (W : forall s' qs', lull none (R d) qs s' qs' -> lull (fun r => sets o r) (R d) qs s' qs').
  { intros s' qs' [A B]. split; [exact A|]. intros y Ly _. apply B; [exact Ly|intros []]. }
  assert (All : (forall r, sets o r) -> exists qs', rinv (R d') qs' /\ lull (fun r => sets o r) (R d) qs (R d') qs').
  { intros S. destruct (step_onward d e o d' x qs H C (conj N L) No Nc E) as (qs' & H' & O'). exists qs'. split; [exact H'|]. split; [apply O'|]. intros y _ K. destruct (K (S y)). }
  destruct o; cbn [step] in E.
  - apply on_new_ok in E as (s & r0 & E1 & -> & ->). match type of E1 with Ok ?p = Ok ?q => assert (E2 : p = q) by congruence end. exists qs. split; [apply (mdnsd_shared_inv _ _ _ _ _ _ _ H E2)|]. cbn [with_R R].
    destruct (mdnsd_shared_inv _ _ _ _ _ _ _ H E2) as (_ & -> & F & _ & O & _). split; [lia|]. intros y Ly _. rewrite (O y) by lia. destruct (hp (R d) y); auto.
  - apply on_new_ok in E as (s & r0 & E1 & -> & ->). destruct (mdnsd_unique_inv (R d) qs (now d) host type ttl cb H L) as (s' & E2 & H' & F & _ & O & _). rewrite E2 in E1. injection E1 as <- _. eexists. split; [exact H'|].
    cbn [with_R R]. split; [lia|]. intros y Ly _. specialize (O y ltac:(lia)). destruct (hp (R d) y) as [X|], (hp s' y) as [Y|]; try discriminate; auto.
    assert (Nx : nolink Y = nolink X) by exact (f_equal (fun o => match o with Some y => y | None => nolink X end) O).
    apply nolink_fields in Nx as (N1 & N2 & N3 & N4 & N5 & N6). unfold dull. rewrite N2, N4. intros D. split; [exact D|]. intros k I. destruct k; cbn [on queue_eqb] in I; auto. destruct I as [I|I]; [lia|exact I].
  - eapply Rset; [exact L|apply keeps_raw| |exact E]. reflexivity.
  - eapply Rset; [exact L|apply keeps_host| |exact E]. reflexivity.
  - eapply Rset; [exact L|apply keeps_ip| |exact E]. reflexivity.
  - eapply Rset; [exact L|apply keeps_ip6| |exact E]. reflexivity.
  - eapply Rset; [exact L|apply keeps_srv| |exact E]. reflexivity.
  - apply live_some in L as (X & EX). destruct (done_lull none (R d) qs (now d) r X H EX) as (s' & qs' & E' & H' & O'). unfold on_recs in E. rewrite E' in E. injection E as <- _. eauto.
  - apply All. intros y. exact I.
  - apply All. intros y. exact I.
  - apply All. intros y. exact I.
  - apply All. intros y. exact I.
  - apply All. intros y. exact I.
  - injection E as <- _. apply Rsame. reflexivity.
  - injection E as <- _. apply Rsame. reflexivity.
  - congruence.
  - congruence.
  - apply bind_ok in E as (q' & _ & E). injection E as <- _. apply Rsame. reflexivity.
  - destruct (in_lull d e m from qs H C N L) as (d1 & n & qs1 & E1 & H1 & O1). rewrite E1 in E. injection E as <- _. eauto.
  - congruence.
  - destruct (mdnsd_sleep_spec d e qs H) as (d1 & t & qs' & E1 & O & H'). rewrite E1 in E. injection E as <- _.
    destruct O as [| | | | | |s' y sec Eu Z Cq Ex Es Tp F Ep Fr]; try (apply Rsame; reflexivity). exfalso. destruct (Np eq_refl) as [P|[(q & r & P)|P]]; [contradiction| |contradiction].
    apply (waits_iff _ _ _ _ H) in P. rewrite Z in P. destruct P.
  - injection E as <- _. apply Rsame. reflexivity.
Qed.

Definition blank (s : recs) (qs : queue -> list nat) (r : nat) : Prop := (r < fresh s)%nat /\ (forall X, hp s r = Some X -> dull X) /\ forall k, ~ In r (qs k).

Lemma blank_step : forall d e o x d' r qs, reach d -> legal d e o -> step d e o = Ok (d', x) -> ~ sets o r -> o <> OShutdown -> (o = OSleep -> pending d) ->
  rinv (R d) qs -> blank (R d) qs r -> exists qs', rinv (R d') qs' /\ blank (R d') qs' r.
Proof.
  intros d e o x d' r qs K L E Ns Nd Np H (B1 & B2 & B3). destruct (reach_dinv d K) as (q0 & _ & C).
  destruct (event_cases d e o d' x qs K H L E) as (qs' & H' & [(-> & m & n & S & B & -> & O & (Fn & Fs) & Sp & N & Qs)|[(-> & Z)|(N1 & N2 & O)]]).
  - exists qs'. split; [exact H'|]. assert (Fr : (fresh (R d) <= fresh (R d'))%nat) by (eapply step_fresh; eassumption).
    destruct (hp (R d) r) as [X|] eqn:EX.
    + specialize (Fs r X EX). assert (NS : ~ In r S) by (intros I; destruct (Qs r I) as (k & _ & J); exact (B3 k J)).
      inversion Fs; try contradiction; try (exfalso; match goal with J : In r (qs ?k) |- _ => exact (B3 k J) end).
      * exfalso. match goal with J : In r (qs _) \/ In r (qs _) |- _ => destruct J as [J|J]; exact (B3 _ J) end.
      * split; [lia|]. split; [|intros k J; match goal with Q : forall k, _ <-> _ |- _ => apply Q in J end; exact (B3 k J)].
        match goal with Ll : like X _ |- _ => destruct Ll as (_ & L2 & L3) end. intros Y' EY. assert (EY2 : Y' = Y) by congruence. subst Y'. unfold dull. rewrite L2, L3. apply B2. reflexivity.
    + specialize (Fn r EX). split; [lia|]. split; [congruence|]. intros k J. apply (queue_live _ _ _ _ H') in J. congruence.
  - exists qs'. split; [exact H'|]. assert (Fr : (fresh (R d) <= fresh (R d'))%nat) by (eapply step_fresh; eassumption). split; [lia|]. split; [congruence|]. intros k J. apply (queue_live _ _ _ _ H') in J. apply J. apply Z.
  - destruct (step_lull d e o d' x qs H C L Nd Np N1 N2 E) as (qs2 & H2 & (F & G)). exists qs2. split; [exact H2|]. split; [lia|]. specialize (G r B1 Ns).
    destruct (hp (R d) r) as [X|] eqn:EX, (hp (R d') r) as [Y|] eqn:EY; try contradiction.
    + destruct (G (B2 X eq_refl)) as [G1 G2]. split; [intros Y' EY'; injection EY' as <-; exact G1|]. intros k J. exact (B3 k (G2 k J)).
    + split; [discriminate|]. intros k J. apply (queue_live _ _ _ _ H2) in J. congruence.
    + split; [discriminate|]. intros k J. apply (queue_live _ _ _ _ H2) in J. congruence.
Qed.

Lemma never_queued : forall d e h ty ttl d1 r l d2, reach d -> legal d e (OShared h ty ttl) -> step d e (OShared h ty ttl) = Ok (d1, RRec r) -> history d1 l d2 ->
  (forall ev, In ev l -> ~ sets (ev_call ev) r /\ ev_call ev <> OShutdown /\ (ev_call ev = OSleep -> pending (ev_before ev))) ->
  forall q, ~ waits d2 q r.
Proof.
  intros d e h ty ttl d1 r l d2 K L E Hh Okay. pose proof (reach_step _ _ _ _ _ K L E) as K1.
  assert (B : exists qs, rinv (R d2) qs /\ blank (R d2) qs r).
  { induction Hh as [|l d2 e2 o x d3 Hh IH L2 E2].
    - destruct (reach_dinv d K) as (qs & H & _). cbn [step] in E. apply on_new_ok in E as (s & r0 & E1 & -> & E3). injection E3 as ->. match type of E1 with Ok ?p = Ok ?q => assert (E2 : p = q) by congruence end.
      destruct (mdnsd_shared_inv _ _ _ _ _ _ _ H E2) as (H1 & -> & F & EX & O & _). exists qs. split; [exact H1|]. cbn [with_R R]. split; [lia|]. split; [intros Y EY; rewrite EX in EY; injection EY as <-; split; reflexivity|].
      intros k J. apply (queue_live _ _ _ _ H) in J. apply J. exact (fresh_free _ _ (ri_q _ _ H)).
    - destruct (IH (fun ev I => Okay ev (in_or_app _ _ _ (or_introl I)))) as (qs & H & B). destruct (Okay (mkevent d2 e2 o x d3)) as (O1 & O2 & O3); [apply in_or_app; right; left; reflexivity|]. cbn [ev_call ev_before] in *.
      exact (blank_step d2 e2 o x d3 r qs (history_reach _ _ _ K1 Hh) L2 E2 O1 O2 O3 H B). }
  destruct B as (qs & H & _ & _ & B). intros q W. apply (waits_iff d2 qs q r H) in W. exact (B q W).
Qed.

Lemma not_sent_unset : forall d e h ty ttl d1 r l d2, reach d -> legal d e (OShared h ty ttl) -> step d e (OShared h ty ttl) = Ok (d1, RRec r) -> history d1 l d2 ->
  (forall ev, In ev l -> ~ sets (ev_call ev) r /\ ev_call ev <> OShutdown /\ (ev_call ev = OSleep -> pending (ev_before ev))) ->
  (forall q, ~ waits d2 q r) /\
  forall e2 d3 m n, legal d2 e2 OOut -> uans (R d2) = [] -> step d2 e2 OOut = Ok (d3, RMsg m n) -> o_qr m = true ->
  exists La, answers_of m = map (as_answer (class d2)) La /\ NoDup (map fst La) /\ forall x X, In (x, X) La -> record d2 x X /\ x <> r.
Proof.
  intros d e h ty ttl d1 r l d2 K L E Hh Okay. pose proof (never_queued _ _ _ _ _ _ _ _ _ K L E Hh Okay) as W. split; [exact W|]. intros e2 d3 m n L2 U E2 Qr.
  pose proof (reach_step _ _ _ _ _ K L E) as K1. pose proof (history_reach _ _ _ K1 Hh) as K2.
  destruct (response_lists d2 e2 d3 m n K2 L2 U E2 Qr) as (La & Lx & Ei & _ & Nd & M & _). exists La. split; [|split; [exact Nd|]].
  - unfold answers_of. rewrite Ei, filter_app, filter_all, filter_none, app_nil_r; [reflexivity| |]; intros p; reflexivity.
  - intros x X I. destruct (M x X I) as (M1 & (k & _ & Wk) & _). split; [exact M1|]. intros ->. exact (W k Wk).
Qed.
