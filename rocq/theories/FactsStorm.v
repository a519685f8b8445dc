(* What makes the daemon send: for C105 to C107. *)
From Verif Require Import Base Lemmas Hash HashProofs Wire Rec Qry Out In Api RecInv RecSafe RecOps RecAddr OutSafe OutExtra QryInv QryOps CacheOps QryReg QryLoop InSafe InLoop InResp OutAll OutSpec Shut DaemonInv SpecDaemon SpecLife SpecAnswer SpecStorm FactsCalls FactsItems FactsEvolve FactsIn FactsOut FactsFrame FactsFate FactsLife FactsSpace FactsUni FactsBlank.

(* ------------------------------------------------------------------ *)
(* Responses *)

Definition blamed (s : recs) (C : list (nat * list Z * Z)) (s' : recs) (x : nat) : Prop :=
  exists X Y cb, hp s x = Some X /\ unique X <> 0 /\ conflict X = Some cb /\ In (cb, a_name (rr X), a_type (rr X)) C /\ hp s' x = Some Y /\ a_ttl (rr Y) = 0.
Definition hush (s : recs) (qs : queue -> list nat) (s' : recs) (qs' : queue -> list nat) : Prop := exists C,
  conflicts s' = conflicts s ++ C /\ (C = [] -> s' = s /\ qs' = qs) /\
  (forall x Y, hp s' x = Some Y -> exists X, hp s x = Some X /\ unique Y = unique X /\ conflict Y = conflict X /\ a_name (rr Y) = a_name (rr X) /\ a_type (rr Y) = a_type (rr X) /\ (a_ttl (rr X) = 0 -> a_ttl (rr Y) = 0)) /\
  forall k x, In x (qs' k) -> In x (qs k) \/ blamed s C s' x.

Lemma hush_refl : forall s qs, hush s qs s qs.
Proof. intros s qs. exists []. rewrite app_nil_r. split; [reflexivity|]. split; [auto|]. split; [intros x Y E; exists Y; auto 10|auto]. Qed.
Lemma hush_trans : forall s qs s1 qs1 s2 qs2, rinv s2 qs2 -> hush s qs s1 qs1 -> hush s1 qs1 s2 qs2 -> hush s qs s2 qs2.
Proof.
  intros s qs s1 qs1 s2 qs2 H2 (C1 & A1 & A2 & A3 & A4) (C2 & B1 & B2 & B3 & B4). exists (C1 ++ C2). split; [rewrite B1, A1, app_assoc; reflexivity|]. split; [|split].
  - intros E. apply app_eq_nil in E as [E1 E2]. destruct (A2 E1) as [-> ->]. destruct (B2 E2) as [-> ->]. auto.
  - intros x Z EZ. destruct (B3 x Z EZ) as (Y & EY & K1 & K2 & K3 & K4 & K5). destruct (A3 x Y EY) as (X & EX & J1 & J2 & J3 & J4 & J5). exists X. split; [exact EX|]. repeat split; try congruence. auto.
  - intros k x I. destruct (hp s2 x) as [Z|] eqn:EZ; [|destruct (queue_live _ _ _ _ H2 I EZ)]. destruct (B3 x Z EZ) as (Y & EY & K1 & K2 & K3 & K4 & K5).
    destruct (B4 k x I) as [J|(Y' & Z' & cb & G1 & G2 & G3 & G4 & G5 & G6)].
    + destruct (A4 k x J) as [L|(X & Y' & cb & G1 & G2 & G3 & G4 & G5 & G6)]; [auto|right]. exists X, Z, cb. repeat (split; [assumption|]). split; [apply in_or_app; auto|]. split; [exact EZ|]. apply K5. congruence.
    + right. rewrite EY in G1. injection G1 as <-. destruct (A3 x Y EY) as (X & EX & J1 & J2 & J3 & J4 & J5). exists X, Z', cb. split; [exact EX|]. split; [congruence|]. split; [congruence|]. split; [apply in_or_app; right; rewrite <- J3, <- J4; exact G4|]. auto.
Qed.
Lemma given_up_hush : forall s qs s' r X, rinv s qs -> unique X <> 0 -> given_up s s' r X ->
  hush s qs s' (if probes X then on Probing (remove1 r (qs Probing)) qs else sent_queues X r qs).
Proof.
  intros s qs s' r X H U (E & B & G & F & Cf). exists (report X). split; [exact Cf|].
  destruct (conflict X) as [cb|] eqn:Ec; [|destruct (ur_conflict _ _ _ (ri_u _ _ H r X E) U Ec)]. assert (Rp : report X = [(cb, a_name (rr X), a_type (rr X))]) by (unfold report; rewrite Ec; reflexivity).
  split; [rewrite Rp; discriminate|].
  assert (Old : forall x Y, x <> r -> hp s' x = Some Y -> exists X, hp s x = Some X /\ nolink Y = nolink X).
  { intros x Y D EY. specialize (B x D). rewrite EY in B. destruct (hp s x) as [Z|]; [|discriminate]. exists Z. split; [reflexivity|]. exact (f_equal (fun o => match o with Some y => y | None => nolink Z end) (eq_sym B)). }
  split.
  - intros x Y EY. destruct (Nat.eq_dec x r) as [->|D].
    + exists X. split; [exact E|]. destruct (probes X); destruct G as [G _]; [congruence|]. destruct G as (Y' & EY' & N). rewrite EY in EY'. injection EY' as <-.
      apply nolink_fields in N as (N1 & N2 & N3 & N4 & N5 & N6). cbn [RecOps.gone set_rr rr unique conflict] in *. rewrite N1, N2, N5. cbn [set_ttl a_name a_type a_ttl]. auto 10.
    + destruct (Old x Y D EY) as (Z & EZ & N). exists Z. split; [exact EZ|]. apply nolink_fields in N as (N1 & N2 & N3 & N4 & N5 & N6). rewrite N1, N2, N5. auto 10.
  - intros k x I. destruct (probes X) eqn:P.
    + left. revert I. apply probing_back. apply remove1_back.
    + destruct (Nat.eq_dec x r) as [->|D]; [right|left; revert I; apply (sent_back s qs r X H); exact D]. destruct G as [(Y & EY & N) _].
      exists X, Y, cb. split; [exact E|]. split; [exact U|]. split; [exact Ec|]. split; [rewrite Rp; left; reflexivity|]. split; [exact EY|]. apply nolink_fields in N as (N1 & _). rewrite N1. reflexivity.
Qed.
Lemma responses_hush : forall an d e from did qs, rinv (R d) qs -> qinv (Q d) -> 0 <= fst (now d) -> Forall wf_resource an -> (did = true -> ifs d = view d e) ->
  exists s' q' i tm L qs' T, responses d e from did an = Ok (heard d s' q' i tm (received d ++ L)) /\ rinv s' qs' /\ qinv q' /\ hush (R d) qs s' qs' /\ shrinks (e_cb e) (Q d) q' T.
Proof.
  induction an as [|a an IH]; intros d e from did qs H Hq N W D.
  - cbn [responses]. exists (R d), (Q d), (ifs d), (ifs_time d), [], qs, []. rewrite app_nil_r. split; [destruct d; reflexivity|]. split; [exact H|]. split; [exact Hq|]. split; [apply hush_refl|apply shrinks_refl].
  - apply Forall_cons_iff in W as [Wa W].
    destruct (response_spec d e from did a an qs H Hq N Wa D) as (s1 & q1 & i1 & tm1 & L1 & did1 & qs1 & T1 & E1 & Ii & Di & H1 & Hq1 & Sh1 & G1 & _). cbv zeta in G1.
    assert (O1 : hush (R d) qs s1 qs1).
    { destruct (contested d a) as [[r X]|] eqn:Ct; [|destruct G1 as [-> ->]; apply hush_refl]. destruct (is_me d e from); [destruct G1 as [-> ->]; apply hush_refl|].
      destruct G1 as [G1 ->]. apply given_up_hush; [exact H| |exact G1]. destruct (contested_some _ _ _ _ Ct) as [_ Dp]. unfold disputes in Dp. lia. }
    rewrite E1. set (d1 := heard d s1 q1 i1 tm1 (received d ++ L1)) in *.
    assert (V1 : view d1 e = view d e).
    { unfold view, d1. destruct (e_ifs e) as [l|] eqn:Ee; [reflexivity|]. cbn [heard ifs]. destruct Ii as [->| ->]; [reflexivity|]. unfold view. rewrite Ee. reflexivity. }
    assert (D1 : did1 = true -> ifs d1 = view d1 e) by (intros K; rewrite V1; apply Di; exact K).
    destruct (IH d1 e from did1 qs1 H1 Hq1 N W D1) as (s2 & q2 & i2 & tm2 & L2 & qs2 & T2 & E2 & H2 & Hq2 & O2 & Sh2). cbn [d1 heard R received Q] in *.
    exists s2, q2, i2, tm2, (L1 ++ L2), qs2, (T1 ++ T2). split; [rewrite E2, app_assoc; reflexivity|]. split; [exact H2|]. split; [exact Hq2|]. split; [eapply hush_trans; eassumption|eapply shrinks_trans; eassumption].
Qed.

Lemma response_silent : forall d e m from d' x, reach d -> legal d e (OIn m from) -> h_qr (m_header m) <> 0 -> step d e (OIn m from) = Ok (d', x) ->
  disco d' = disco d /\ (forall u, In u (uans (R d')) -> In u (uans (R d))) /\
  (forall y, registered d' y -> registered d y) /\ checkq (Q d') = checkq (Q d) /\
  (forall k r, waits d' k r -> waits d k r \/ exists X Y, record d r X /\ unique X <> 0 /\ conflict_told d X d' /\ record d' r Y /\ a_ttl (rr Y) = 0) /\
  (conflicts (R d') = conflicts (R d) -> R d' = R d).
Proof.
  intros d e m from d' x K [N W] Qr E. destruct (reach_dinv d K) as (qs & H & C). destruct (mdnsd_in_spec d e m from qs H C N W) as (d1 & n & qs' & E1 & A & _).
  cbn [step] in E. rewrite E1 in E. injection E as <- _. destruct C as (C1 & _).
  destruct A as [?|i tm ? ? ?|i0 tm0 d' qs' X1 X2 X3 X4 E2|i0 tm0 d' qs' X1 X2 X3 X4 E2].
  - auto 10.
  - cbn [into disco uans R Q with_now registered]. repeat split; auto.
  - congruence.
  - set (d0 := into (with_now d (e_now e)) (R d) i0 tm0 (received d)) in *.
    destruct (responses_sound (m_an m) d0 e from false qs H C1 N W ltac:(discriminate)) as (s0 & q0 & i1 & tm1 & L0 & qs0 & T0 & Cf0 & E0 & _ & _ & _ & _ & _ & _ & U1 & _).
    destruct (responses_hush (m_an m) d0 e from false qs H C1 N W ltac:(discriminate)) as (s' & q' & i & tm & L & qs2 & T & E3 & H2 & Hq2 & O2 & Sh).
    rewrite E2 in E0, E3. injection E0 as ->. injection E3 as <- <- _ _ _. cbn [heard disco R Q]. split; [reflexivity|]. split; [exact U1|]. split; [|split; [exact (sh_checkq _ _ _ _ Sh)|]].
    + intros y (q & I & Ey). cbn [heard Q] in *. pose proof (sh_qh _ _ _ _ Sh q y Ey) as Ed. exists q. split; [|exact Ed]. apply (qi_live _ C1). cbn [d0 into Q with_now] in Ed. rewrite Ed. discriminate.
    + destruct O2 as (Cs & A1 & A2 & A3 & A4). change (R d0) with (R d) in *. split.
      * intros k r Wr. apply (proj1 (waits_iff (heard d0 s0 q0 i1 tm1 (received d ++ L0)) qs2 k r H2)) in Wr. destruct (A4 k r Wr) as [J|(X & Y & cb & G1 & G2 & G3 & G4 & G5 & G6)]; [left; apply (waits_iff _ _ _ _ H); exact J|right].
        exists X, Y. split; [exact G1|]. split; [exact G2|]. split; [exists Cs, cb; auto|]. auto.
      * intros Eq. rewrite A1 in Eq. rewrite <- (app_nil_r (conflicts (R d))) in Eq at 2. apply app_inv_head in Eq. destruct (A2 Eq) as [B _]. exact B.
Qed.

(* ------------------------------------------------------------------ *)
(* Queues only grow by what is called for.  P: handles, names and types *)
Definition drift (P : nat -> list Z -> Z -> Prop) (s : recs) (qs : queue -> list nat) (s' : recs) (qs' : queue -> list nat) : Prop :=
  (fresh s <= fresh s')%nat /\ forall x, (x < fresh s)%nat ->
    (forall Y, hp s' x = Some Y -> exists X, hp s x = Some X /\ a_name (rr Y) = a_name (rr X) /\ a_type (rr Y) = a_type (rr X)) /\
    forall k, In x (qs' k) -> In x (qs k) \/ exists X, hp s x = Some X /\ P x (a_name (rr X)) (a_type (rr X)).
Lemma drift_refl : forall P s qs, drift P s qs s qs.
Proof. intros P s qs. split; [apply le_n|]. intros x _. split; [intros Y E; eauto|auto]. Qed.
Lemma drift_trans : forall P s qs s1 qs1 s2 qs2, drift P s qs s1 qs1 -> drift P s1 qs1 s2 qs2 -> drift P s qs s2 qs2.
Proof.
  intros P s qs s1 qs1 s2 qs2 [F1 A] [F2 B]. split; [lia|]. intros x L. destruct (A x L) as [A1 A2]. destruct (B x ltac:(lia)) as [B1 B2]. split.
  - intros Z EZ. destruct (B1 Z EZ) as (Y & EY & K1 & K2). destruct (A1 Y EY) as (X & EX & J1 & J2). exists X. split; [exact EX|]. split; congruence.
  - intros k I. destruct (B2 k I) as [J|(Y & EY & K)]; [exact (A2 k J)|]. right. destruct (A1 Y EY) as (X & EX & J1 & J2). exists X. split; [exact EX|]. rewrite <- J1, <- J2. exact K.
Qed.
Lemma drift_weak : forall (P P' : nat -> list Z -> Z -> Prop) s qs s' qs', drift P s qs s' qs' -> (forall x n ty, P x n ty -> P' x n ty) -> drift P' s qs s' qs'.
Proof. intros P P' s qs s' qs' [F A] K. split; [exact F|]. intros x L. destruct (A x L) as [A1 A2]. split; [exact A1|]. intros k I. destruct (A2 k I) as [J|(X & EX & J)]; [auto|right]. exists X. auto. Qed.
Lemma drift_but : forall (P : nat -> list Z -> Z -> Prop) s qs s' qs' r, fresh s' = fresh s -> hbut r (hp s) (hp s') -> (forall k x, x <> r -> In x (qs' k) -> In x (qs k)) ->
  ((r < fresh s)%nat -> (forall Y, hp s' r = Some Y -> exists X, hp s r = Some X /\ a_name (rr Y) = a_name (rr X) /\ a_type (rr Y) = a_type (rr X)) /\
    forall k, In r (qs' k) -> In r (qs k) \/ exists X, hp s r = Some X /\ P r (a_name (rr X)) (a_type (rr X))) -> drift P s qs s' qs'.
Proof.
  intros P s qs s' qs' r F B Q K. split; [lia|]. intros x L. destruct (Nat.eq_dec x r) as [->|D]; [exact (K L)|]. split; [|intros k I; left; apply Q; assumption].
  intros Y EY. specialize (B x D). rewrite EY in B. destruct (hp s x) as [X|]; [|discriminate]. exists X. split; [reflexivity|].
  assert (NY : nolink Y = nolink X) by exact (f_equal (fun o => match o with Some y => y | None => nolink X end) (eq_sym B)).
  apply nolink_fields in NY as (N1 & _). rewrite N1. auto.
Qed.

Lemma done_drift : forall (P : nat -> list Z -> Z -> Prop) s qs t r X, rinv s qs -> hp s r = Some X -> P r (a_name (rr X)) (a_type (rr X)) -> exists s' qs', mdnsd_done s t r = Ok s' /\ rinv s' qs' /\ drift P s qs s' qs' /\ hbut r (hp s) (hp s').
Proof.
  intros P s qs t r X H E Pr. destruct (probes X) eqn:Pb.
  - destruct (mdnsd_done_probing s qs t r X H E Pb) as (s' & E' & H' & N & B & F & _). exists s'. eexists. split; [exact E'|]. split; [exact H'|]. split; [|exact B].
    eapply drift_but; [exact F|exact B| |]; [|intros _; rewrite N; split; [discriminate|right; eauto]]. intros k x _. apply probing_back. apply remove1_back.
  - destruct (mdnsd_done_sends s qs t r X H E Pb) as (s' & E' & H' & B & (Y & EY & NY) & F & _). exists s', (sent_queues X r qs). split; [exact E'|]. split; [exact H'|]. split; [|exact B].
    eapply drift_but; [exact F|exact B|intros k x; apply (sent_back s qs r X H)|]. intros _. split; [|right; eauto]. intros Y' EY'. rewrite EY in EY'. injection EY' as <-. exists X. split; [exact E|].
    apply nolink_fields in NY as (N1 & _). rewrite N1. auto.
Qed.
Lemma set_drift : forall (P : nat -> list Z -> Z -> Prop) s qs t r f X, rinv s qs -> keeps_id f -> hp s r = Some X -> P r (a_name (rr X)) (a_type (rr X)) ->
  exists s' qs', mdnsd_set s t r f = Ok s' /\ rinv s' qs' /\ drift P s qs s' qs' /\ hbut r (hp s) (hp s').
Proof.
  intros P s qs t r f X H Kf E Pr. unfold mdnsd_set, with_rr. rewrite (hget_some _ _ _ E). cbn [bind].
  set (X1 := set_rr X (f (rr X))). set (s1 := set_hp s (hset (hp s) r X1)). destruct (Kf (rr X)) as (K1 & K2 & K3).
  assert (H1 : rinv s1 qs).
  { eapply rinv_set; [exact H|exact E|reflexivity|exact K1|]. destruct (ri_u _ _ H r X E) as [U1 U2 U3 U4 U5 U6 U7]. split; assumption. }
  assert (E1 : hp s1 r = Some X1) by apply hset_same.
  assert (B0 : hbut r (hp s) (hp s1)) by apply hbut_set.
  destruct (probes X) eqn:Pb.
  - change (probes X1 = true) in Pb. rewrite (r_publish_probes s1 t r X1 E1 Pb).
    exists (set_hp s1 (hset (hp s1) r (set_modified X1 true))), qs. split; [reflexivity|].
    assert (B : hbut r (hp s) (hp (set_hp s1 (hset (hp s1) r (set_modified X1 true))))) by (eapply hbut_trans; [exact B0|apply hbut_set]).
    split. { eapply rinv_set; [exact H1|exact E1|reflexivity|reflexivity|]. destruct (ri_u _ _ H1 r X1 E1) as [U1 U2 U3 U4 U5 U6 U7]. split; assumption. }
    split; [|exact B]. eapply (drift_but P s qs _ qs r); [reflexivity|exact B|auto|]. intros _. split; [|auto]. intros Y EY. cbn [set_hp hp] in EY. rewrite hset_same in EY. injection EY as <-. exists X. split; [exact E|]. cbn [set_modified X1 set_rr rr]. auto.
  - change (probes X1 = false) in Pb. destruct (r_publish_full s1 qs t r X1 H1 E1 Pb) as (s' & E' & H' & [(F1 & F2 & F3 & F4 & F5 & F6 & F7) F]).
    rewrite E'. cbn [announced set_tpublish set_hp hp fresh] in F, F1.
    assert (B : hbut r (hp s) (hp s')).
    { intros y D. rewrite <- (F y). cbn [s1 set_hp hp]. rewrite !hset_other by exact D. reflexivity. }
    exists s', (enq Publish r qs). split; [reflexivity|]. split; [exact H'|]. split; [|exact B].
    apply (drift_but P s qs _ _ r F1 B); [intros k x; apply enq_back; exact (qk_nodup _ _ (ri_q _ _ H))|]. intros _. split; [|right; eauto].
    intros Y EY. specialize (F r). rewrite hset_same, EY in F.
    assert (NY : nolink Y = nolink (set_tries (set_modified X1 true) 0)) by exact (f_equal (fun o => match o with Some y => y | None => nolink Y end) (eq_sym F)).
    apply nolink_fields in NY as (N1 & _). exists X. split; [exact E|]. rewrite N1. cbn [set_tries set_modified X1 set_rr rr]. auto.
Qed.
Lemma shared_drift : forall P s qs h ty ttl s' r, rinv s qs -> mdnsd_shared s h ty ttl = (s', r) -> drift P s qs s' qs.
Proof.
  intros P s qs h ty ttl s' r H E. destruct (mdnsd_shared_inv _ _ _ _ _ _ _ H E) as (_ & -> & F & _ & O & _). split; [lia|]. intros x L. rewrite (O x) by lia. split; [intros Y EY; eauto|auto].
Qed.
Lemma unique_drift : forall P s qs t h ty ttl cb, rinv s qs -> cb <> None -> exists s' qs', mdnsd_unique s t h ty ttl cb = Ok (s', fresh s) /\ rinv s' qs' /\ drift P s qs s' qs'.
Proof.
  intros P s qs t h ty ttl cb H N. destruct (mdnsd_unique_inv s qs t h ty ttl cb H N) as (s' & E & H' & F & _ & O & _). exists s'. eexists. split; [exact E|]. split; [exact H'|].
  split; [lia|]. intros x L. specialize (O x ltac:(lia)). split.
  - intros Y EY. rewrite EY in O. destruct (hp s x) as [X|]; [|discriminate]. exists X. split; [reflexivity|].
    assert (Nx : nolink Y = nolink X) by exact (f_equal (fun o => match o with Some y => y | None => nolink X end) O). apply nolink_fields in Nx as (N1 & _). rewrite N1. auto.
  - intros k I. left. destruct k; cbn [on queue_eqb] in I; auto. destruct I as [I|I]; [lia|exact I].
Qed.
Lemma drift_old : forall (P P' : nat -> list Z -> Z -> Prop) s qs s1 qs1 s2 qs2, drift P s qs s1 qs1 -> drift P' s1 qs1 s2 qs2 ->
  (forall x n ty, (x < fresh s)%nat -> P' x n ty -> P x n ty) -> drift P s qs s2 qs2.
Proof.
  intros P P' s qs s1 qs1 s2 qs2 [F1 A] [F2 B] N. split; [lia|]. intros x L. destruct (A x L) as [A1 A2]. destruct (B x ltac:(lia)) as [B1 B2]. split.
  - intros Z EZ. destruct (B1 Z EZ) as (Y & EY & K1 & K2). destruct (A1 Y EY) as (X & EX & J1 & J2). exists X. split; [exact EX|]. split; congruence.
  - intros k I. destruct (B2 k I) as [J|(Y & EY & K)]; [exact (A2 k J)|]. right. destruct (A1 Y EY) as (X & EX & J1 & J2). exists X. split; [exact EX|]. rewrite <- J1, <- J2. apply N; assumption.
Qed.
Definition named (h : list Z) (t : Z) (x : nat) (n : list Z) (ty : Z) : Prop := n = h /\ ty = t.
Lemma add_drift : forall P l s qs t h ty ttl, rinv s qs -> exists s' qs', add_addrs s t h ty ttl l = Ok s' /\ rinv s' qs' /\ drift P s qs s' qs'.
Proof.
  intros P. induction l as [|i l IH]; intros s qs t h ty ttl H; cbn [add_addrs]; [exists s, qs; split; [reflexivity|split; [exact H|apply drift_refl]]|].
  destruct (has_addr_ok (hp s) (chain_of s h) h ty i (chain_of_live s h (ri_p _ _ H))) as (b & Eb & _). rewrite Eb. cbn [bind]. destruct b.
  - cbn [bind]. apply IH. exact H.
  - destruct (mdnsd_shared s h ty ttl) as [s1 r] eqn:E1. pose proof (shared_drift P _ _ _ _ _ _ _ H E1) as O1.
    destruct (mdnsd_shared_inv _ _ _ _ _ _ _ H E1) as (H1 & -> & F1 & G1 & _).
    fold (set_addr s1 t ty (fresh s) i). rewrite set_addr_eq.
    destruct (set_drift (fun x _ _ => x = fresh s) s1 qs t (fresh s) _ _ H1 (keeps_addr ty i) G1 eq_refl) as (s2 & qs2 & E2 & H2 & O2 & _). rewrite E2. cbn [bind].
    destruct (IH s2 qs2 t h ty ttl H2) as (s3 & qs3 & E3 & H3 & O3). exists s3, qs3. split; [exact E3|]. split; [exact H3|].
    eapply drift_trans; [|exact O3]. eapply drift_old; [exact O1|exact O2|]. intros x n ty' L ->. lia.
Qed.
Lemma drop_drift : forall l s qs t h ty a, rinv s qs -> all_live (hp s) l -> NoDup l ->
  exists s' qs', drop_addrs s t l h ty a = Ok s' /\ rinv s' qs' /\ drift (named h ty) s qs s' qs'.
Proof.
  induction l as [|x l IH]; intros s qs t h ty a H L N; cbn [drop_addrs]; [exists s, qs; split; [reflexivity|split; [exact H|apply drift_refl]]|].
  apply all_live_cons in L as [[X E] L]. apply NoDup_cons_iff in N as [N1 N2]. rewrite (hget_some _ _ _ E). cbn [bind]. destruct (_ && _ && _) eqn:Cn.
  - apply andb_prop in Cn as [Cn _]. apply andb_prop in Cn as [Ct Cn]. apply bytes_eqb_eq in Cn.
    destruct (done_drift (named h ty) s qs t x X H E) as (s1 & qs1 & E1 & H1 & O1 & B); [split; [exact Cn|lia]|]. rewrite E1. cbn [bind].
    destruct (IH s1 qs1 t h ty a H1) as (s2 & qs2 & E2 & H2 & O2); [|exact N2|].
    + intros y I. rewrite <- (hbut_live x _ _ y B); [apply L; exact I|]. intros ->. contradiction.
    + exists s2, qs2. split; [exact E2|]. split; [exact H2|]. eapply drift_trans; eassumption.
  - cbn [bind]. apply IH; assumption.
Qed.
Lemma update_drift : forall s qs t h ty a, rinv s qs -> exists s' qs', update_addresses s t h ty a = Ok s' /\ rinv s' qs' /\ drift (named h ty) s qs s' qs'.
Proof.
  intros s qs t h ty a H. unfold update_addresses.
  destruct (mdnsd_find_ok s h ty (ri_p _ _ H)) as (o & Eo & S). rewrite Eo. cbn [bind].
  assert (T : exists ttl, match o with None => Ok 120 | Some r => X <- hget (hp s) r;; Ok (if a_ttl (rr X) =? 0 then 120 else a_ttl (rr X)) end = Ok ttl).
  { destruct o as [x|]; [|eauto]. destruct S as (X & E & _). rewrite (hget_some _ _ _ E). cbn [bind]. eauto. }
  destruct T as (ttl & Et). rewrite Et. cbn [bind].
  destruct (add_drift (named h ty) a s qs t h ty ttl H) as (s1 & qs1 & E1 & H1 & O1). rewrite E1. cbn [bind].
  destruct (drop_drift (chain_of s1 h) s1 qs1 t h ty a H1 (chain_of_live s1 h (ri_p _ _ H1)) (pok_chain_nodup s1 h (ri_p _ _ H1))) as (s2 & qs2 & E2 & H2 & O2).
  exists s2, qs2. split; [exact E2|]. split; [exact H2|]. eapply drift_trans; eassumption.
Qed.
Definition any_address (x : nat) (n : list Z) (ty : Z) : Prop := ty = QTYPE_A \/ ty = QTYPE_AAAA.
Lemma hosts_drift : forall l s qs t v4 v6, rinv s qs -> exists s' qs', set_hosts s t l v4 v6 = Ok s' /\ rinv s' qs' /\ drift any_address s qs s' qs'.
Proof.
  induction l as [|n l IH]; intros s qs t v4 v6 H; cbn [set_hosts]; [exists s, qs; split; [reflexivity|split; [exact H|apply drift_refl]]|].
  destruct (update_drift s qs t n QTYPE_A v4 H) as (s1 & qs1 & E1 & H1 & O1). rewrite E1. cbn [bind].
  destruct (update_drift s1 qs1 t n QTYPE_AAAA v6 H1) as (s2 & qs2 & E2 & H2 & O2). rewrite E2. cbn [bind].
  destruct (IH s2 qs2 t v4 v6 H2) as (s3 & qs3 & E3 & H3 & O3). exists s3, qs3. split; [exact E3|]. split; [exact H3|].
  eapply drift_trans; [eapply drift_weak; [exact O1|]|eapply drift_trans; [eapply drift_weak; [exact O2|]|exact O3]]; intros x m ty [_ ->]; [left|right]; reflexivity.
Qed.
Lemma interface_drift : forall s qs t l n, rinv s qs -> exists s' qs', set_interface_addresses s t l n = Ok s' /\ rinv s' qs' /\ drift any_address s qs s' qs'.
Proof.
  intros s qs t l n H. unfold set_interface_addresses. destruct l as [l|]; [|exists s, qs; split; [reflexivity|split; [exact H|apply drift_refl]]].
  cbv zeta. destruct (host_names_ok (hp s) (concat (pub s)) [] (pub_live s (ri_p _ _ H))) as (hosts & E). rewrite E. cbn [bind]. apply hosts_drift. exact H.
Qed.
Definition of_type (t : Z) (x : nat) (n : list Z) (ty : Z) : Prop := ty = t.
Lemma all_drift : forall l s qs t ty i, rinv s qs -> all_live (hp s) l -> is_zero i = false ->
  exists s' qs', set_all s t l ty i = Ok s' /\ rinv s' qs' /\ drift (of_type ty) s qs s' qs'.
Proof.
  induction l as [|x l IH]; intros s qs t ty i H L Z; cbn [set_all]; [exists s, qs; split; [reflexivity|split; [exact H|apply drift_refl]]|].
  apply all_live_cons in L as [[X E] L]. rewrite (hget_some _ _ _ E). cbn [bind]. rewrite Z. destruct (Z.eqb_spec (a_type (rr X)) ty) as [K|K].
  - fold (set_addr s t ty x i). rewrite set_addr_eq.
    destruct (set_drift (of_type ty) s qs t x _ _ H (keeps_addr ty i) E K) as (s1 & qs1 & E1 & H1 & O1 & B). rewrite E1. cbn [bind].
    destruct (IH s1 qs1 t ty i H1) as (s2 & qs2 & E2 & H2 & O2); [|exact Z|].
    + intros y I. destruct (Nat.eq_dec y x) as [->|N]; [|rewrite <- (hbut_live x _ _ y B N); apply L; exact I].
      destruct (set_onward (fun x => True) s qs t x _ _ H (keeps_addr ty i) E ltac:(exact Logic.I)) as (s1' & ? & Y & E1' & _ & _ & _ & EY & _). rewrite E1 in E1'. injection E1' as <-. congruence.
    + exists s2, qs2. split; [exact E2|]. split; [exact H2|]. eapply drift_trans; eassumption.
  - cbn [bind]. apply IH; assumption.
Qed.
Lemma zero_drift : forall l s qs t ty i, rinv s qs -> all_live (hp s) l -> NoDup l -> (forall k x X, In x l -> hp s x = Some X -> a_type (rr X) = ty -> ~ In x (qs k)) -> is_zero i = true ->
  exists s' qs', set_all s t l ty i = Ok s' /\ rinv s' qs' /\ drift (of_type ty) s qs s' qs'.
Proof.
  induction l as [|r l IH]; intros s qs t ty i H L N O Z; cbn [set_all]; [exists s, qs; split; [reflexivity|split; [exact H|apply drift_refl]]|].
  apply all_live_cons in L as [(X & E) L]. apply NoDup_cons_iff in N as [Nr N]. rewrite (hget_some _ _ _ E). cbn [bind]. rewrite Z. destruct (Z.eqb_spec (a_type (rr X)) ty) as [Ty|Ty]; cbn [bind].
  - set (Y := set_link (set_rr X (set_ttl (rr X) 0)) (a_now s)). set (s1 := set_head (set_hp s (hset (hp s) r Y)) Now (Some r)).
    assert (H1 : rinv s1 (on Now (r :: qs Now) qs)).
    { eapply raw_push; [exact H|exact E|reflexivity|reflexivity|apply urec_expired; apply (ri_u _ _ H r X E)|]. intros k. exact (O k r X (or_introl eq_refl) E Ty). }
    assert (O1 : drift (of_type ty) s qs s1 (on Now (r :: qs Now) qs)).
    { eapply (drift_but (of_type ty) s qs _ _ r); [reflexivity|apply hbut_set| |].
      - intros k x D I. destruct (queue_dec k Now) as [->|Dk]; [rewrite on_same in I; destruct I as [I|I]; [congruence|exact I]|rewrite on_other in I by exact Dk; exact I].
      - intros _. split; [|right; exists X; split; [exact E|exact Ty]]. intros Y' EY. cbn [s1 set_head set_hp hp] in EY. rewrite hset_same in EY. injection EY as <-. exists X. auto. }
    destruct (IH s1 _ t ty i H1) as (s2 & qs2 & E2 & H2 & O2); [|exact N| |exact Z|].
    + intros x I. cbn [s1 hp set_head set_hp]. destruct (Nat.eq_dec x r) as [->|D]; [contradiction|]. rewrite hset_other by exact D. apply L. exact I.
    + intros k x X' I EX' Ty' K. assert (Dx : x <> r) by (intros ->; contradiction). cbn [s1 set_head set_hp hp] in EX'. rewrite hset_other in EX' by exact Dx. destruct (queue_dec k Now) as [->|D].
      * rewrite on_same in K. destruct K as [->|K]; [contradiction|]. exact (O Now x X' (or_intror I) EX' Ty' K).
      * rewrite on_other in K by exact D. exact (O k x X' (or_intror I) EX' Ty' K).
    + exists s2, qs2. split; [exact E2|]. split; [exact H2|]. eapply drift_trans; eassumption.
  - apply IH; auto. intros k x X' I. apply O. right. exact I.
Qed.

(* ------------------------------------------------------------------ *)
(* No call but those of calls_for puts a record on a queue *)
Definition no_more (d d' : daemon) (r : nat) : Prop := forall k, waits d' k r -> waits d k r.

Lemma drift_no_more : forall P d qs d' qs' r, rinv (R d) qs -> rinv (R d') qs' -> drift P (R d) qs (R d') qs' -> (r < fresh (R d))%nat ->
  (forall X, record d r X -> ~ P r (a_name (rr X)) (a_type (rr X))) -> no_more d d' r.
Proof.
  intros P d qs d' qs' r H H' [F D] L N k W. apply (waits_iff _ _ _ _ H') in W. apply (waits_iff _ _ _ _ H). destruct (D r L) as [_ D2]. destruct (D2 k W) as [J|(X & EX & J)]; [exact J|destruct (N X EX J)].
Qed.

Lemma step_no_more : forall d e o d' x r, reach d -> legal d e o -> step d e o = Ok (d', x) -> (r < fresh (R d))%nat -> o <> OOut -> ~ calls_for (mkevent d e o x d') r -> no_more d d' r.
Proof.
  intros d e o d' x r K L E A No N. destruct (reach_dinv d K) as (qs & H & C).
  assert (Rset : forall y f, live d y -> keeps_id f -> (y = r -> False) -> on_recs d (mdnsd_set (R d) (now d) y f) = Ok (d', x) -> no_more d d' r).
  { intros y f Ly Kf D E1. apply live_some in Ly as (X & EX). destruct (set_drift (fun z _ _ => z = y) (R d) qs (now d) y f X H Kf EX eq_refl) as (s' & qs' & E' & H' & O' & _).
    unfold on_recs in E1. rewrite E' in E1. injection E1 as <- _. eapply drift_no_more; [exact H|exact H'|exact O'|exact A|]. intros Y _ EY. apply D. congruence. }
  assert (Ron : forall P y, (exists s' qs', y = Ok s' /\ rinv s' qs' /\ drift P (R d) qs s' qs') -> (forall X, record d r X -> ~ P r (a_name (rr X)) (a_type (rr X))) -> on_recs d y = Ok (d', x) -> no_more d d' r).
  { intros P y (s' & qs' & -> & H' & O') D E1. unfold on_recs in E1. injection E1 as <- _. eapply drift_no_more; [exact H|exact H'|exact O'|exact A|exact D]. }
  assert (Rsame : R d' = R d -> no_more d d' r).
  { intros Eq k W. unfold waits, queue_is, next_of in *. rewrite Eq in W. exact W. }
  assert (Rall : forall ty i s', is_zero i = false \/ (forall r X, hp (R d) r = Some X -> a_type (rr X) = ty -> unlinked (R d) r) -> set_all (R d) (now d) (concat (pub (R d))) ty i = Ok s' ->
     exists qs', rinv s' qs' /\ drift (of_type ty) (R d) qs s' qs').
  { intros ty i s' Ki E1. destruct (is_zero i) eqn:Zi.
    - destruct Ki as [?|Ki]; [discriminate|].
      destruct (zero_drift (concat (pub (R d))) (R d) qs (now d) ty i H (pub_live _ (ri_p _ _ H)) (pk_nodup _ (ri_p _ _ H))) as (s1 & qs1 & E2 & H2 & O2); [|exact Zi|].
      + intros k y Y _ EY Ty. exact (unlinked_off _ _ _ k H (Ki y Y EY Ty)).
      + rewrite E1 in E2. injection E2 as <-. eauto.
    - destruct (all_drift (concat (pub (R d))) (R d) qs (now d) ty i H (pub_live _ (ri_p _ _ H)) Zi) as (s1 & qs1 & E2 & H2 & O2). rewrite E1 in E2. injection E2 as <-. eauto. }
  destruct o; pose proof L as [Ln Ll]; cbn [legal] in Ll; pose proof E as E0; cbn [step] in E.
  - apply on_new_ok in E as (s & r0 & E1 & -> & ->). match type of E1 with Ok ?p = Ok ?q => assert (E2 : p = q) by congruence end.
    eapply drift_no_more; [exact H|apply (mdnsd_shared_inv _ _ _ _ _ _ _ H E2)|eapply (shared_drift (fun _ _ _ => False)); eassumption|exact A|auto].
  - apply on_new_ok in E as (s & r0 & E1 & -> & ->). destruct (unique_drift (fun _ _ _ => False) (R d) qs (now d) host type ttl cb H Ll) as (s1 & qs1 & E2 & H2 & O2). rewrite E2 in E1. injection E1 as <- _.
    eapply drift_no_more; [exact H|exact H2|exact O2|exact A|auto].
  - eapply Rset; [exact Ll|apply keeps_raw| |exact E]. intros ->. apply live_some in Ll as (X & EX). apply N. exists X. split; [exact EX|reflexivity].
  - eapply Rset; [exact Ll|apply keeps_host| |exact E]. intros ->. apply live_some in Ll as (X & EX). apply N. exists X. split; [exact EX|reflexivity].
  - eapply Rset; [exact Ll|apply keeps_ip| |exact E]. intros ->. apply live_some in Ll as (X & EX). apply N. exists X. split; [exact EX|reflexivity].
  - eapply Rset; [exact Ll|apply keeps_ip6| |exact E]. intros ->. apply live_some in Ll as (X & EX). apply N. exists X. split; [exact EX|reflexivity].
  - eapply Rset; [exact Ll|apply keeps_srv| |exact E]. intros ->. apply live_some in Ll as (X & EX). apply N. exists X. split; [exact EX|reflexivity].
  - apply live_some in Ll as (X & EX). eapply (Ron (fun z _ _ => z = r0)); [destruct (done_drift (fun z _ _ => z = r0) (R d) qs (now d) r0 X H EX eq_refl) as (s' & qs' & E' & H' & O' & _); eauto| |exact E].
    intros Y EY ->. apply N. exists Y. split; [exact EY|reflexivity].
  - eapply Ron; [apply update_drift; exact H| |exact E]. intros X EX [P1 P2]. apply N. exists X. split; [exact EX|]. split; assumption.
  - eapply Ron; [apply update_drift; exact H| |exact E]. intros X EX [P1 P2]. apply N. exists X. split; [exact EX|]. split; assumption.
  - eapply Ron; [apply interface_drift; exact H| |exact E]. intros X EX P1. apply N. exists X. split; [exact EX|]. exact P1.
  - destruct (bytes_eqb _ _); [injection E as <- _; apply Rsame; reflexivity|]. apply bind_ok in E as (s & E1 & E). injection E as <- _. destruct (Rall QTYPE_A i s Ll E1) as (qs' & H' & O').
    eapply drift_no_more; [exact H|exact H'|exact O'|exact A|]. intros X EX P1. apply N. exists X. split; [exact EX|exact P1].
  - destruct (bytes_eqb _ _); [injection E as <- _; apply Rsame; reflexivity|]. apply bind_ok in E as (s & E1 & E). injection E as <- _. destruct (Rall QTYPE_AAAA i s Ll E1) as (qs' & H' & O').
    eapply drift_no_more; [exact H|exact H'|exact O'|exact A|]. intros X EX P1. apply N. exists X. split; [exact EX|exact P1].
  - injection E as <- _. apply Rsame. reflexivity.
  - injection E as <- _. apply Rsame. reflexivity.
  - (* mdnsd_shutdown *) destruct (event_cases d e OShutdown d' x qs K H L E0) as (qs' & H' & [(? & _)|[(? & _)|(_ & _ & O')]]); try congruence.
    intros k J. apply (waits_iff _ _ _ _ H') in J. pose proof (queue_live _ _ _ _ H' J) as Lv. destruct O' as [_ O']. specialize (O' r A).
    destruct (hp (R d) r) as [X|] eqn:EX; [destruct N; exists X; split; [exact EX|exact Logic.I]|]. destruct (hp (R d') r); [contradiction|congruence].
  - (* records_clear *) destruct (event_cases d e OClear d' x qs K H L E0) as (qs' & H' & [(? & _)|[(_ & Z)|(_ & ? & _)]]); try congruence.
    intros k J. apply (waits_iff _ _ _ _ H') in J. destruct (queue_live _ _ _ _ H' J (Z r)).
  - apply bind_ok in E as (q' & _ & E). injection E as <- _. apply Rsame. reflexivity.
  - (* mdnsd_in *) intros k W. destruct (Z.eq_dec (h_qr (m_header m)) 0) as [Qr|Qr].
    + destruct (queries_frame d e m from d' x K Qr E0) as (_ & _ & _ & B). destruct (B k r W) as [J|(_ & q & X & I & J)]; [exact J|]. destruct N. exists X. split; [apply J|]. left. split; [exact Qr|]. exists q. auto.
    + destruct (response_silent d e m from d' x K L Qr E0) as (_ & _ & _ & _ & B & _). destruct (B k r W) as [J|(X & Y & J1 & J2 & J3 & _)]; [exact J|]. destruct N. exists X. split; [exact J1|]. right. auto.
  - congruence.
  - (* mdnsd_sleep *) destruct (mdnsd_sleep_spec d e qs H) as (d1 & t & qs' & E1 & O' & H'). rewrite E1 in E. injection E as <- _.
    intros k J. apply (waits_iff _ _ _ _ H') in J. apply (waits_iff _ _ _ _ H). destruct O'; try exact J. destruct (queue_dec k Pause) as [->|D]; [|rewrite on_other in J by exact D; exact J].
    rewrite on_same in J. apply in_rev in J. apply filter_In in J as [J1 J2]. unfold holds in J2. destruct N. destruct (hp (R d) r) as [X|] eqn:EX; [|discriminate]. exists X. split; [exact EX|]. cbn [ev_call ev_before ev_env]. split.
    + intros [P1|[(k & y & P1)|P1]]; try congruence. apply (waits_iff _ _ _ _ H) in P1. rewrite H1 in P1. exact P1.
    + unfold soon in J2. lia.
  - injection E as <- _. apply Rsame. reflexivity.
Qed.

(* How many more messages a record is due: four announcements at most *)
Definition due (d : daemon) (r : nat) (n : Z) : Prop :=
  forall k X, waits d k r -> record d r X -> 1 <= n /\ (k = Publish -> 4 - tries X <= n) /\ (k = Probing -> 4 <= n).

Lemma calls_touches : forall d e o x d' r X, record d r X -> touches d o r -> calls_for (mkevent d e o x d') r.
Proof.
  intros d e o x d' r X EX T. exists X. split; [exact EX|]. cbn [ev_call]. destruct o; cbn [touches] in T; try contradiction; try congruence; destruct T as (Y & EY & T); unfold record in EX; congruence.
Qed.

Lemma step_due : forall d e o d' x r n, reach d -> legal d e o -> step d e o = Ok (d', x) -> (r < fresh (R d))%nat -> ~ calls_for (mkevent d e o x d') r -> singular d r -> due d r n ->
  (~ multicasts r (mkevent d e o x d') /\ due d' r n) \/ (multicasts r (mkevent d e o x d') /\ 1 <= n /\ due d' r (n - 1)).
Proof.
  intros d e o d' x r n K L E A N Sg D. destruct (reach_dinv d K) as (qs & H & C).
  destruct (event_cases d e o d' x qs K H L E) as (qs' & H' & [(-> & m & c & S & B & -> & _ & Ft & Sp & _ & Sq)|[(-> & Z)|(N1 & N2 & O)]]).
  - destruct (hp (R d) r) as [X|] eqn:EX.
    2:{ left. split; [intros (m1 & n1 & X & _ & _ & _ & _ & J & _); unfold record in J; cbn [ev_before] in J; congruence|]. intros k X _ EX'. unfold record in EX'. rewrite (proj1 Ft r EX) in EX'. discriminate. }
    assert (Dq : forall k, In r (qs k) -> 1 <= n /\ (k = Publish -> 4 - tries X <= n) /\ (k = Probing -> 4 <= n)) by (intros k I; apply (D k X); [apply (waits_iff _ _ _ _ H); exact I|exact EX]).
    assert (Dq' : forall i, (forall k Y, In r (qs' k) -> hp (R d') r = Some Y -> 1 <= i /\ (k = Publish -> 4 - tries Y <= i) /\ (k = Probing -> 4 <= i)) -> due d' r i).
    { intros i F k Y W EY. apply (F k Y); [apply (waits_iff _ _ _ _ H'); exact W|exact EY]. }
    destruct (in_dec Nat.eq_dec r S) as [I|I].
    + right. split; [eapply sent_says; eassumption|]. destruct (Sq r I) as (k0 & _ & I0). split; [exact (proj1 (Dq k0 I0))|]. apply Dq'. intros k Y J EY.
      pose proof (proj2 Ft r X EX) as F. rewrite EY in F. inversion F as [|Y0 _ _ _ _ Nq|Y0 _ _ Iq _ _ Tr Nq|Y0 Ns|Y0 Ns|Y0 Ns|Y0 Ns]; subst; try contradiction.
      * destruct (Nq k J).
      * apply Nq in J as [-> J]. destruct (Dq Publish Iq) as (D1 & D2 & _). specialize (D2 eq_refl). repeat split; try discriminate; intros; lia.
    + left. split; [intros M; apply I; eapply says_sent; eassumption|]. apply Dq'. intros k Y J EY.
      pose proof (proj2 Ft r X EX) as F. rewrite EY in F. inversion F as [|Y0 ?|Y0 ?|Y0 Ns Nb Iq U R1 U1 Tr Nq|Y0 Ns Nb Iq U R1 U1 Tr Nq|Y0 Ns Nb _ Iq Lk Nq|Y0 Ns Nb Lk Nq]; subst; try contradiction.
      * apply Nq in J as ->. destruct (Dq Probing Iq) as (D1 & _ & D3). auto with zarith.
        split; [exact D1|]. split; [discriminate|exact D3].
      * apply Nq in J as ->. destruct (Dq Probing Iq) as (D1 & _ & D3). specialize (D3 eq_refl). repeat split; try discriminate; intros; lia.
      * destruct (Nq k J).
      * apply Nq in J. destruct Lk as (_ & _ & ->). exact (Dq k J).
  - left. split; [apply not_out_multicasts; discriminate|]. intros k X _ EX. unfold record in EX. rewrite Z in EX. discriminate.
  - left. split; [apply not_out_multicasts; exact N1|]. intros k Y W EY. pose proof (step_no_more d e o d' x r K L E A N1 N k W) as W0.
    destruct O as [_ O]. specialize (O r A). unfold record in EY. rewrite EY in O. destruct (hp (R d) r) as [X|] eqn:EX; [|contradiction].
    assert (T : tries Y = tries X). { apply (fo_tries _ _ _ _ _ _ O). intros T. apply N. eapply calls_touches; eassumption. } rewrite T. exact (D k X W0 EX).
Qed.

Lemma storm_bound : forall d l d' r, reach d -> (r < fresh (R d))%nat -> history d l d' -> (forall ev, In ev l -> ~ calls_for ev r /\ singular (ev_before ev) r) ->
  forall n0, due d r n0 -> 0 <= n0 -> exists n, (Z.of_nat n <= n0) /\ times (multicasts r) n l /\ due d' r (n0 - Z.of_nat n).
Proof.
  intros d l d' r K A Hh. induction Hh as [|l d1 e o x d' Hh IH L E]; intros N n0 D P.
  - exists 0%nat. split; [exact P|]. split; [constructor|]. cbn [Z.of_nat]. rewrite Z.sub_0_r. exact D.
  - destruct (IH ltac:(intros ev I; apply N; apply in_or_app; left; exact I) n0 D P) as (n & Ln & T & D1). destruct (N (mkevent d1 e o x d') ltac:(apply in_or_app; right; left; reflexivity)) as [Nc Sg].
    assert (A1 : (r < fresh (R d1))%nat). { clear - K A Hh. induction Hh as [|l d1 e o x d' Hh IH L E]; [exact A|]. destruct (step_fresh d1 e o d' x (history_reach _ _ _ K Hh) L E) as [F _]. lia. }
    destruct (step_due d1 e o d' x r _ (history_reach _ _ _ K Hh) L E A1 Nc Sg D1) as [[M D2]|(M & P1 & D2)].
    + exists n. split; [exact Ln|]. split; [apply times_miss; assumption|exact D2].
    + exists (S n). split; [lia|]. split; [apply times_hit; assumption|]. replace (n0 - Z.of_nat (S n)) with (n0 - Z.of_nat n - 1) by lia. exact D2.
Qed.

Lemma due_idle : forall d r, reach d -> due d r 0 -> idle d r.
Proof.
  intros d r K D k W. destruct (reach_dinv d K) as (qs & H & _). pose proof W as J. apply (waits_iff _ _ _ _ H) in J. destruct (hp (R d) r) as [X|] eqn:EX; [|exact (queue_live _ _ _ _ H J EX)].
  destruct (D k X W EX). lia.
Qed.

(* Four times at most, whatever was waiting *)
Lemma storm_four : forall d l d' r X, reach d -> record d r X -> history d l d' -> (forall ev, In ev l -> ~ calls_for ev r /\ singular (ev_before ev) r) ->
  exists n, times (multicasts r) n l /\ (n <= 4)%nat.
Proof.
  intros d l d' r X K EX Hh N. destruct (reach_dinv d K) as (qs & H & _).
  assert (A : (r < fresh (R d))%nat) by (apply (qk_fresh _ _ (ri_q _ _ H)); unfold record in EX; congruence).
  destruct (storm_bound d l d' r K A Hh N 4) as (n1 & L1 & T1 & _); [|lia|].
  - intros k Y W EY. pose proof (ur_tries _ _ _ (ri_u _ _ H r Y EY)). repeat split; intros; lia.
  - exists n1. split; [exact T1|lia].
Qed.
(* Not at all if nothing waits, and it stays so; once if a reply waits *)
Lemma storm_none : forall d l d' r X, reach d -> record d r X -> idle d r -> history d l d' -> (forall ev, In ev l -> ~ calls_for ev r /\ singular (ev_before ev) r) ->
  times (multicasts r) 0 l /\ idle d' r.
Proof.
  intros d l d' r X K EX Id Hh N. destruct (reach_dinv d K) as (qs & H & _).
  assert (A : (r < fresh (R d))%nat) by (apply (qk_fresh _ _ (ri_q _ _ H)); unfold record in EX; congruence).
  destruct (storm_bound d l d' r K A Hh N 0) as (n1 & L1 & T1 & D1); [intros k Y W EY; destruct (Id k W)|lia|].
  replace n1 with 0%nat in * by lia. split; [exact T1|]. apply due_idle; [exact (history_reach _ _ _ K Hh)|exact D1].
Qed.
Lemma storm_once : forall d l d' r X k, reach d -> record d r X -> waits d k r -> k = Now \/ k = Pause -> history d l d' -> (forall ev, In ev l -> ~ calls_for ev r /\ singular (ev_before ev) r) ->
  exists n, times (multicasts r) n l /\ (n <= 1)%nat.
Proof.
  intros d l d' r X k K EX Wk Kk Hh N. destruct (reach_dinv d K) as (qs & H & _).
  assert (A : (r < fresh (R d))%nat) by (apply (qk_fresh _ _ (ri_q _ _ H)); unfold record in EX; congruence).
  destruct (storm_bound d l d' r K A Hh N 1) as (n1 & L1 & T1 & _); [|lia|].
  - intros j Y W EY. apply (waits_iff _ _ _ _ H) in W. apply (waits_iff _ _ _ _ H) in Wk. pose proof (qk_disj _ _ (ri_q _ _ H) _ _ _ W Wk) as ->. destruct Kk as [->| ->]; repeat split; try discriminate; intros; lia.
  - exists n1. split; [exact T1|lia].
Qed.

(* ------------------------------------------------------------------ *)
(* One unicast reply per question at most *)
Definition to_a (a : addr) (u : unicast) : bool := if addr_dec (u_to u) a then true else false.
Definition queued_for (a : addr) (s : recs) : nat := length (filter (to_a a) (uans s)).
Lemma fewer_for : forall a s s', fewer s s' -> (queued_for a s' <= queued_for a s)%nat.
Proof.
  intros a s s' (p & E). unfold queued_for. rewrite E. clear E. induction (uans s) as [|u l IH]; [apply le_n|]. cbn [filter]. destruct (p u), (to_a a u) eqn:T; cbn [filter length]; rewrite ?T; cbn [length]; lia.
Qed.
Lemma responses_ua : forall an d e from did d', responses d e from did an = Ok d' -> fewer (R d) (R d').
Proof.
  induction an as [|x an IH]; intros d e from did d' E; cbn [responses] in E; [injection E as <-; apply fewer_same; reflexivity|].
  apply bind_ok in E as (r & _ & E). apply bind_ok in E as ([[d1 did1] skip] & E1 & E).
  assert (F : fewer (R d) (R d1)).
  { destruct r as [r|]; [|injection E1 as <- _ _; apply fewer_same; reflexivity]. apply bind_ok in E1 as (X & _ & E1). destruct (_ && _); [|injection E1 as <- _ _; apply fewer_same; reflexivity].
    destruct (recheck d e from did) as [d2 l] eqn:Er. assert (E2 : R d2 = R d) by (eapply recheck_R; exact Er).
    destruct l; [injection E1 as <- _ _; rewrite E2; apply fewer_same; reflexivity|]. apply bind_ok in E1 as (s & Es & E1). injection E1 as <- _ _. rewrite <- E2. cbn [with_R R]. eapply conflict_ua. exact Es. }
  eapply fewer_trans; [exact F|]. destruct skip; [exact (IH _ _ _ _ _ E)|]. cbv zeta in E. apply bind_ok in E as (q & _ & E). apply IH in E. destruct (has_recv d1); exact E.
Qed.
Lemma questions_few : forall qd d e from did id an qs d' a, rinv (R d) qs -> (did = true -> ifs d = view d e) -> questions d e from did id qd an = Ok d' ->
  (queued_for a (R d') <= queued_for a (R d) + if addr_dec from a then length qd else 0)%nat.
Proof.
  induction qd as [|q qd IH]; intros d e from did id an qs d' a H D E.
  - cbn [questions] in E. injection E as <-. destruct (addr_dec from a); cbn [length]; lia.
  - destruct (question_spec d e from did id q qd an qs H D) as (s1 & i1 & tm1 & L1 & did1 & E1 & Ii & Di & H1 & A1 & F1 & U1 & _).
    rewrite E1 in E. set (d1 := answered d s1 i1 tm1 (received d ++ L1) (disco d || is_disco q && negb match asked d q with [] => true | _ => false end)) in *. clear E1.
    assert (V1 : view d1 e = view d e).
    { unfold view, d1. destruct (e_ifs e) as [l|] eqn:Ee; [reflexivity|]. cbn [answered ifs]. destruct Ii as [->| ->]; [reflexivity|]. unfold view. rewrite Ee. reflexivity. }
    assert (D1 : did1 = true -> ifs d1 = view d1 e) by (intros K; rewrite V1; apply Di; exact K).
    specialize (IH d1 e from did1 id an _ d' a H1 D1 E). change (R d1) with s1 in IH.
    assert (P : (queued_for a s1 <= queued_for a (R d) + if addr_dec from a then 1 else 0)%nat).
    { unfold queued_for. rewrite U1. clear U1 H1 A1. set (dead := loses (is_me d e from) q an (hp (R d)) (asked d q)). rewrite filter_app, app_length.
      assert (P1 : (length (filter (to_a a) (filter (fun u => negb (mem (u_r u) dead)) (uans (R d)))) <= length (filter (to_a a) (uans (R d))))%nat).
      { clear. induction (uans (R d)) as [|u l IHl]; [apply le_n|]. cbn [filter]. destruct (negb (mem (u_r u) dead)); cbn [filter]; destruct (to_a a u); cbn [length]; lia. }
      assert (P2 : (length (filter (to_a a) (unicasts from id q (asked d q) dead)) <= if addr_dec from a then 1 else 0)%nat).
      { unfold unicasts. destruct (asked d q) as [|r l]; [apply Nat.le_0_l|]. destruct dead; [|apply Nat.le_0_l]. destruct (is_disco q || (port from =? 5353)); [apply Nat.le_0_l|]. cbn [filter]. unfold to_a. cbn [u_to]. destruct (addr_dec from a); apply le_n. }
      lia. }
    destruct (addr_dec from a); cbn [length]; lia.
Qed.

(* The replies sent and to be sent *)
Lemma step_few : forall d e o d' x a, reach d -> legal d e o -> step d e o = Ok (d', x) -> port a <> 5353 ->
  (~ sends_to a (mkevent d e o x d') /\ (queued_for a (R d') <= queued_for a (R d) + questions_in a o)%nat) \/
  (sends_to a (mkevent d e o x d') /\ (S (queued_for a (R d')) <= queued_for a (R d) + questions_in a o)%nat).
Proof.
  intros d e o d' x a K L E Pa. assert (W : {o = OOut} + {o <> OOut}) by (destruct o; auto; right; discriminate). destruct W as [->|No].
  - destruct (out_result d e d' x E) as (m & n & ->). destruct (out_to d e d' m n K L E) as [(Eu & T & _)|(u & us & X & Eu & T & _)].
    + left. split.
      * intros (m1 & n1 & _ & E1 & E2). cbn [ev_result] in E1. injection E1 as <- <-. apply Pa. rewrite <- E2, T. reflexivity.
      * destruct (step_ua d e OOut d' _ K L E) as [U _]. assert (Z : uans (R d') = []). { destruct (uans (R d')) as [|u l] eqn:Z; [reflexivity|]. destruct (U u ltac:(left; reflexivity)) as [I|(m1 & q1 & X1 & ? & _)]; [rewrite Eu in I; destruct I|discriminate]. }
        unfold queued_for. rewrite Z. apply Nat.le_0_l.
    + destruct (unicast_sent d e u us K L Eu) as (d2 & m2 & X2 & E2 & _ & T2 & _ & _ & _ & U2). rewrite E in E2. injection E2 as <- <- _. unfold queued_for. rewrite Eu, U2. cbn [filter]. assert (T3 : to_a a u = if addr_dec (u_to u) a then true else false) by reflexivity. destruct (addr_dec (u_to u) a) as [Q|Q]; rewrite T3.
      * right. split; [exists m, n; split; [reflexivity|]; split; [reflexivity|]; congruence|]. cbn [length questions_in]. lia.
      * left. split; [|cbn [questions_in]; lia]. intros (m1 & n1 & _ & E1 & E2). cbn [ev_result] in E1. injection E1 as <- <-. congruence.
  - left. split; [intros (m & n & E1 & _); cbn [ev_call] in E1; contradiction|].
    assert (W : (forall m from, o <> OIn m from) \/ exists m from, o = OIn m from) by (destruct o; eauto; left; discriminate). destruct W as [Ni|(m & from & ->)].
    + destruct (other_ua d e o d' x Ni No E) as [F _]. apply (fewer_for a) in F. lia.
    + destruct (reach_dinv d K) as (qs & H & C). destruct L as [N W]. destruct (mdnsd_in_spec d e m from qs H C N W) as (d2 & n & qs' & E' & A & _). cbn [step] in E. rewrite E' in E. cbn [bind] in E. injection E as <- <-.
      destruct A as [?|i tm|i0 tm0 d2 qs' ? ? ? Qr EA|i0 tm0 d2 qs' ? ? ? ? EA].
      * lia.
      * change (queued_for a (R d) <= queued_for a (R d) + questions_in a (OIn m from))%nat. lia.
      * apply (questions_few _ _ _ _ _ _ _ qs _ a) in EA; [|exact H|discriminate]. cbn [questions_in]. rewrite Qr. cbn [Z.eqb]. change (R (into (with_now d (e_now e)) (R d) i0 tm0 (received d))) with (R d) in EA. exact EA.
      * apply responses_ua in EA. apply (fewer_for a) in EA. change (R (into (with_now d (e_now e)) (R d) i0 tm0 (received d))) with (R d) in EA. lia.
Qed.

Lemma few_replies : forall t0 cls frm l d a, 0 <= fst t0 -> history (mdnsd_new t0 cls frm) l d -> port a <> 5353 -> exists n, times (sends_to a) n l /\ (n <= questions_from a l)%nat.
Proof.
  intros t0 cls frm l d a N Hh Pa. cut (exists n, times (sends_to a) n l /\ (n + queued_for a (R d) <= questions_from a l)%nat); [intros (n & T & B); exists n; split; [exact T|lia]|].
  induction Hh as [|l d e o x d' Hh IH L E]; [exists 0%nat; split; [constructor|apply le_n]|]. destruct IH as (n & T & B). pose proof (history_reach _ _ _ (reach_new t0 cls frm N) Hh) as K.
  unfold questions_from in *. rewrite map_app, list_sum_app. cbn [map ev_call]. change (list_sum [questions_in a o]) with (questions_in a o + 0)%nat. destruct (step_few d e o d' x a K L E Pa) as [[S F]|[S F]].
  - exists n. split; [apply times_miss; assumption|]. lia.
  - exists (Datatypes.S n). split; [apply times_hit; assumption|]. lia.
Qed.
