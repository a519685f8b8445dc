(* Facts about single calls in reachable states. *)
From Verif Require Import Base Lemmas Hash HashProofs Wire Rec Qry Out In Api RecInv RecSafe RecOps RecAddr OutSafe QryInv QryOps CacheOps QryReg QryLoop InSafe InLoop InResp OutPub OutProbe OutExtra OutAll OutSpec Shut DaemonInv SpecDaemon.

(* ------------------------------------------------------------------ *)
(* Queues *)

Lemma linked_chain : forall d l p, chain (hp (R d)) p l -> linked (next_of d) p l.
Proof.
  intros d l. induction l as [|x l IH]; intros p C; cbn [chain] in C; [subst p; constructor|]. destruct C as (-> & X & E & C).
  apply (linked_node (next_of d) x (link X)); [unfold next_of; rewrite E; reflexivity|apply IH; exact C].
Qed.
Lemma linked_same : forall next p l, linked next p l -> forall l', linked next p l' -> l = l'.
Proof.
  intros next p l H. induction H as [|x q l E H IH]; intros l' K; inversion K; subst; [reflexivity|]. f_equal. apply IH. congruence.
Qed.
Lemma queue_of : forall d qs k, rinv (R d) qs -> queue_is d k (qs k).
Proof. intros d qs k H. apply linked_chain. apply (qk_chain _ _ (ri_q _ _ H)). Qed.
Lemma queue_eq : forall d qs k l, rinv (R d) qs -> queue_is d k l -> l = qs k.
Proof. intros d qs k l H K. eapply linked_same; [exact K|apply queue_of; exact H]. Qed.
Lemma waits_iff : forall d qs k r, rinv (R d) qs -> (waits d k r <-> In r (qs k)).
Proof.
  intros d qs k r H. split.
  - intros (l & K & I). rewrite (queue_eq d qs k l H K) in I. exact I.
  - intros I. exists (qs k). split; [apply queue_of; exact H|exact I].
Qed.
Lemma idle_iff : forall d qs r, rinv (R d) qs -> (idle d r <-> forall k, ~ In r (qs k)).
Proof. intros d qs r H. unfold idle. split; intros K k I; apply (K k); apply (waits_iff d qs k r H); exact I. Qed.

Lemma reach_dinv : forall d, reach d -> exists qs, rinv (R d) qs /\ calm d.
Proof. intros d K. destruct (reach_inv d K) as (qs & [H C]). eauto. Qed.

Lemma published_live : forall d, reach d -> forall r, published d r <-> exists X, record d r X.
Proof.
  intros d K r. destruct (reach_dinv d K) as (qs & H & _). pose proof (pk_live _ (ri_p _ _ H) r) as L. unfold published, record. rewrite <- L.
  destruct (hp (R d) r) as [X|]; split; intros A; [eauto|discriminate|congruence|destruct A; discriminate].
Qed.

Lemma queues_ok : forall d, reach d -> exists l : queue -> list nat,
  (forall k, queue_is d k (l k)) /\ (forall k, NoDup (l k)) /\ (forall j k r, In r (l j) -> In r (l k) -> j = k) /\ (forall k r, In r (l k) -> published d r).
Proof.
  intros d K. destruct (reach_dinv d K) as (qs & H & _). exists qs. split; [intros k; apply queue_of; exact H|]. split; [apply (qk_nodup _ _ (ri_q _ _ H))|].
  split; [apply (qk_disj _ _ (ri_q _ _ H))|]. intros k r I. apply (published_live d K). unfold record.
  pose proof (chain_live _ _ _ _ (qk_chain _ _ (ri_q _ _ H) k) I) as L. destruct (hp (R d) r); [eauto|congruence].
Qed.

(* ------------------------------------------------------------------ *)
(* Callbacks *)

(* What the answer callbacks of one call were told *)
Definition calls_ok (d : daemon) (e : env) (d' : daemon) (T : list (nat * answer)) : Prop :=
  told (Q d') = told (Q d) ++ T /\ ncb (Q d') = (ncb (Q d) + length T)%nat /\ Forall (called (Q d)) T /\
  (forall i t, nth_error T i = Some t -> e_cb e (ncb (Q d) + i)%nat = true ->
     exists q y, qh (Q d) q = Some y /\ q_cb y = fst t /\ asked_for y (snd t) /\ qh (Q d') q = None).

Lemma calls_none : forall d e d', told (Q d') = told (Q d) -> ncb (Q d') = ncb (Q d) -> calls_ok d e d' [].
Proof.
  intros d e d' A B. split; [rewrite app_nil_r; exact A|]. split; [cbn [length]; lia|]. split; [constructor|]. intros [|i] t; discriminate.
Qed.
Lemma calls_shrinks : forall d e d' T, shrinks (e_cb e) (Q d) (Q d') T -> calls_ok d e d' T.
Proof. intros d e d' T [A1 A2 A3 A4 A5 A6 A7 A8]. split; [exact A1|]. split; [exact A2|]. split; [exact A3|exact A8]. Qed.

Lemma on_recs_ok : forall d y d' x, on_recs d y = Ok (d', x) -> exists s, y = Ok s /\ d' = with_R d s /\ x = RUnit.
Proof. intros d y d' x E. unfold on_recs in E. apply bind_ok in E as (s & E1 & E). injection E as <- <-. eauto. Qed.
Lemma on_new_ok : forall d y d' x, on_new d y = Ok (d', x) -> exists s r, y = Ok (s, r) /\ d' = with_R d s /\ x = RRec r.
Proof. intros d y d' x E. unfold on_new in E. apply bind_ok in E as ([s r] & E1 & E). injection E as <- <-. eauto. Qed.

(* Calls that only touch records *)
Definition records_only (o : op) : bool :=
  match o with OQuery _ _ _ | OIn _ _ | OOut | OSleep => false | _ => true end.
Lemma records_only_Q : forall d e o d' x, records_only o = true -> step d e o = Ok (d', x) -> Q d' = Q d /\ now d' = now d.
Proof.
  intros d e o d' x K E. destruct o; try discriminate; cbn [step] in E;
    try (apply on_recs_ok in E as (s & _ & -> & _); auto; fail); try (apply on_new_ok in E as (s & r & _ & -> & _); auto; fail);
    try (injection E as <- _; auto; fail);
    try (apply bind_ok in E as (s & _ & E); injection E as <- _; auto; fail).
  - destruct (bytes_eqb _ _); [injection E as <- _; auto|]. apply bind_ok in E as (s & _ & E); injection E as <- _; auto.
  - destruct (bytes_eqb _ _); [injection E as <- _; auto|]. apply bind_ok in E as (s & _ & E); injection E as <- _; auto.
Qed.

Lemma sleep_Q : forall d e d' t, mdnsd_sleep d e = Ok (d', t) -> Q d' = Q d.
Proof.
  intros d e d' t E. unfold mdnsd_sleep in E. cbv zeta in E.
  destruct (uans (R d)); [destruct (a_now (R d))|]; try (injection E as <- _; reflexivity).
  destruct (a_pause _); [injection E as <- _; reflexivity|]. destruct (probing _); [injection E as <- _; reflexivity|]. destruct (a_publish _); [injection E as <- _; reflexivity|].
  destruct (negb _); [injection E as <- _; reflexivity|]. destruct (_ <? 0); [injection E as <- _; reflexivity|].
  apply bind_ok in E as ([s x] & _ & E). injection E as <- _. reflexivity.
Qed.

Lemma arrival_calls : forall d e m from qs d' n qs', rinv (R d) qs -> calm d -> 0 <= fst (e_now e) -> wf_message m -> arrival d e m from qs d' n qs' -> exists T, calls_ok d e d' T.
Proof.
  intros d e m from qs d' n qs' H C N W A. destruct C as (C1 & _). destruct A as [?|i tm|i0 tm0 d' qs' ? ? ? ? E|i0 tm0 d' qs' ? ? ? ? E].
  - exists []. apply calls_none; reflexivity.
  - exists []. apply calls_none; reflexivity.
  - set (d1 := into (with_now d (e_now e)) (R d) i0 tm0 (received d)) in *.
    destruct (questions_sound (m_qd m) d1 e from false (m_id m) (m_an m) qs H ltac:(discriminate)) as (s' & i' & tm' & L' & b & qs2 & Cf & E' & _).
    rewrite E in E'. injection E' as ->. exists []. apply calls_none; reflexivity.
  - set (d1 := into (with_now d (e_now e)) (R d) i0 tm0 (received d)) in *.
    destruct (responses_sound (m_an m) d1 e from false qs H C1 N W ltac:(discriminate)) as (s' & q' & i' & tm' & L' & qs2 & T & Cf & E' & _ & _ & _ & Sh & _).
    rewrite E in E'. injection E' as ->. exists T. apply calls_shrinks. exact Sh.
Qed.

Lemma queries_out_back : forall d t q1 m ret, queries_out d t q1 m ret -> forall q x, qh q1 q = Some x -> exists y, qh (Q d) q = Some y /\ q_nm y = q_nm x /\ q_ty y = q_ty x /\ q_cb y = q_cb x.
Proof.
  intros d t q1 m ret K q x E. unfold queries_out in K. destruct (_ && _).
  - destruct K as (K & _). rewrite K in E. destruct (qh (Q d) q) as [y|]; [|discriminate]. injection E as <-. exists y. unfold after_turn.
    destruct (QryLoop.asks t y); [repeat split|]. destruct (rests t y); repeat split.
  - destruct K as (_ & _ & K & _). rewrite K in E. eauto.
Qed.

Lemma outcome_calls : forall d e qs d' m ret qs', (forall k, e_cb e k = false) \/ unexhausted d (fst (e_now e)) -> outcome d e qs d' m ret qs' -> exists T, calls_ok d e d' T.
Proof.
  intros d e qs d' m ret qs' L O. destruct O as [u us X added Eu EX G|N restN P restP s' Eu Sd E1 E2 Dp A U C|N restN P restP A restA s' added all seen Eu Sd D E1 E2 E3 Af U Tp Tb C Tq G
    |N restN A restA s' l Eu Sd D E1 E2 El La Af U C Tp Tb Tq|N restN A restA s' q1 q' l m ret T U Eu Sd D E1 E2 El La Af Ua C Tp Tb Tq QO Ql Sh Zq Uq CK TO G].
  1-4: exists []; apply calls_none; reflexivity.
  cbn [with_expireall with_Q Q]. destruct L as [L|L].
  - exists T. destruct TO as (T1 & T2 & T3). split; [exact T1|]. split; [exact T2|]. split; [exact T3|]. intros i t _ K. rewrite L in K. discriminate.
  - exists U. destruct (Uq L) as [U1 U2]. destruct Sh as [A1 A2 A3 A4 A5 A6 A7 A8]. rewrite U1 in A1. rewrite U2 in A2, A8. split; [exact A1|]. split; [exact A2|].
    pose proof (queries_out_back _ _ _ _ _ QO) as B. split.
    + eapply Forall_impl; [|exact A3]. intros p (q & x & E & F1 & F2). destruct (B q x E) as (y & Ey & Y1 & Y2 & Y3). exists q, y. split; [exact Ey|]. split; [congruence|].
      unfold asked_for in *. rewrite Y1, Y2. exact F2.
    + intros i t K1 K2. destruct (A8 i t K1 K2) as (q & x & E & F1 & F2 & F3). destruct (B q x E) as (y & Ey & Y1 & Y2 & Y3). exists q, y. split; [exact Ey|]. split; [congruence|]. split; [|exact F3].
      unfold asked_for in *. rewrite Y1, Y2. exact F2.
Qed.

Lemma step_calls : forall d e o d' x, reach d -> legal d e o -> step d e o = Ok (d', x) -> exists T, calls_ok d e d' T.
Proof.
  intros d e o d' x K L E. destruct (records_only o) eqn:Ro.
  { destruct (records_only_Q d e o d' x Ro E) as [Eq _]. exists []. apply calls_none; rewrite Eq; reflexivity. }
  destruct (reach_dinv d K) as (qs & H & C). destruct o; try discriminate; destruct L as [N L]; cbn [step] in E.
  - destruct C as (C1 & _). destruct (mdnsd_query_spec (Q d) (fst (now d)) host type answer C1) as (q' & o & E' & _ & _ & _ & _ & F1 & F2 & _). rewrite E' in E. injection E as <- _.
    exists []. apply calls_none; assumption.
  - destruct (mdnsd_in_spec d e m from qs H C N L) as (d2 & n & qs' & E' & A & _). rewrite E' in E. injection E as <- _. eapply arrival_calls; eauto.
  - pose proof C as (C1 & C2 & C3 & C4). destruct (mdnsd_out_spec d e qs H C1 C2 C3 L) as (d2 & m & ret & qs' & E' & O & _). rewrite E' in E. injection E as <- _. eapply outcome_calls; eauto.
  - apply bind_ok in E as ([d2 t] & E' & E). injection E as <- _. exists []. pose proof (sleep_Q _ _ _ _ E') as Eq. apply calls_none; rewrite Eq; reflexivity.
Qed.

Lemma reach_ncb : forall d, reach d -> ncb (Q d) = length (told (Q d)).
Proof.
  intros d K. induction K as [t cls frm N|d e o d' x K IH L E]; [reflexivity|]. destruct (step_calls d e o d' x K L E) as (T & T1 & T2 & _). rewrite T1, T2, app_length. lia.
Qed.

(* An answer callback that returned -1 is not registered any more. *)
Lemma callbacks_unregister : forall d e o d' x, reach d -> legal d e o -> step d e o = Ok (d', x) ->
  exists T, told (Q d') = told (Q d) ++ T /\
    forall i k a, nth_error T i = Some (k, a) -> e_cb e (length (told (Q d)) + i)%nat = true ->
      exists q y, In q (qlist (Q d)) /\ qh (Q d) q = Some y /\ q_cb y = k /\ q_nm y = a_name a /\ (q_ty y = a_type a \/ q_ty y = QTYPE_ANY) /\ ~ In q (qlist (Q d')).
Proof.
  intros d e o d' x K L E. destruct (step_calls d e o d' x K L E) as (T & T1 & T2 & T3 & T4). exists T. split; [exact T1|].
  intros i k a Ei C. rewrite <- (reach_ncb d K) in C. destruct (T4 i (k, a) Ei C) as (q & y & Eq & F1 & F2 & F3). exists q, y.
  assert (K' : reach d') by (eapply reach_step; eauto). destruct (reach_dinv d K) as (qs & _ & (C1 & _)). destruct (reach_dinv d' K') as (qs' & _ & (C1' & _)).
  destruct F2 as [G1 G2]. split; [apply (qi_live _ C1); congruence|]. split; [exact Eq|]. split; [exact F1|]. split; [symmetry; exact G1|]. split; [exact G2|].
  intros I. apply (qi_live _ C1') in I. congruence.
Qed.
