(* Supporting proofs for PropReceive.v. *)
From Verif Require Import Base Lemmas Hash HashProofs Wire Rec Qry Out In Api RecInv RecSafe RecOps RecAddr OutSafe QryInv QryOps CacheOps QryReg QryLoop OutPub OutProbe OutExtra OutAll OutSpec InSafe InLoop InResp Shut DaemonInv SpecDaemon FactsCalls FactsItems FactsIn FactsLookup SpecCache FactsCache SpecReceive.

(* What stays of a daemon while a message is taken in *)
Definition kin (d d' : daemon) : Prop := has_recv d' = has_recv d /\ is_shutdown d' = is_shutdown d.
Lemma kin_refl : forall d, kin d d.
Proof. split; reflexivity. Qed.
Lemma kin_trans : forall a b c, kin a b -> kin b c -> kin a c.
Proof. intros a b c [A1 A2] [B1 B2]. split; congruence. Qed.

Lemma refresh_kin : forall d e f, kin d (refresh d e f) /\ received (refresh d e f) = received d.
Proof. intros d e f. destruct (refresh_into d e f) as (i & tm & -> & _). split; [split|]; reflexivity. Qed.
Lemma local_kin : forall d e from d' l, is_local d e from = (d', l) -> kin d d' /\ received d' = received d.
Proof. intros d e from d' l E. destruct (is_local_spec d e from) as (i & tm & E' & _). rewrite E' in E. injection E as <- _. split; [split|]; reflexivity. Qed.
Lemma recheck_kin : forall d e from did d' l, recheck d e from did = (d', l) -> kin d d' /\ received d' = received d.
Proof.
  intros d e from did d' l E. unfold recheck in E. destruct (local_kin _ _ _ _ _ E) as [A B]. destruct did; [auto|]. destruct (refresh_kin d e true) as [C D].
  split; [exact (kin_trans _ _ _ C A)|congruence].
Qed.

(* responses *)
Definition extends (d d' : daemon) (P : resource -> Prop) : Prop :=
  kin d d' /\ exists l, received d' = received d ++ l /\ (forall a, In a l -> P a) /\ (has_recv d = false -> l = []).
Lemma extends_kin : forall d d' P, kin d d' -> received d' = received d -> extends d d' P.
Proof. intros d d' P K E. split; [exact K|]. exists []. rewrite app_nil_r. split; [exact E|]. split; [intros a []|reflexivity]. Qed.
Lemma extends_trans : forall a b c P, extends a b P -> extends b c P -> extends a c P.
Proof.
  intros a b c P (K1 & l1 & E1 & A1 & N1) (K2 & l2 & E2 & A2 & N2). split; [exact (kin_trans _ _ _ K1 K2)|]. exists (l1 ++ l2). split; [rewrite E2, E1, app_assoc; reflexivity|]. split.
  - intros x I. apply in_app_or in I as [I|I]; auto.
  - intros N. rewrite (N1 N). apply N2. destruct K1 as [K1 _]. congruence.
Qed.
Lemma extends_more : forall a b (P P' : resource -> Prop), (forall x, P x -> P' x) -> extends a b P -> extends a b P'.
Proof. intros a b P P' I (K & l & E & A & N). split; [exact K|]. exists l. auto. Qed.
Lemma heard_one : forall d a (P : resource -> Prop), P a -> extends d (if has_recv d then add_received d a else d) P.
Proof.
  intros d a P Pa. destruct (has_recv d) eqn:H; [|apply extends_kin; [apply kin_refl|reflexivity]]. split; [split; [cbn; congruence|reflexivity]|]. exists [a]. split; [reflexivity|]. split; [intros x [<-|[]]; exact Pa|intros N; congruence].
Qed.

Lemma responses_heard : forall an d e from did d', (did = true -> ifs d = view d e) -> is_me d e from = false -> responses d e from did an = Ok d' ->
  received d' = received d ++ (if has_recv d then an else []).
Proof.
  induction an as [|a an IH]; intros d e from did d' D Me E; cbn [responses] in E; [injection E as <-; destruct (has_recv d); symmetry; apply app_nil_r|].
  apply bind_ok in E as (r & _ & E). apply bind_ok in E as ([[d1 did1] skip] & E1 & E).
  assert (W : skip = false /\ received d1 = received d /\ has_recv d1 = has_recv d /\ (did1 = true -> ifs d1 = view d1 e) /\ is_me d1 e from = false).
  { destruct r as [r|]; [|injection E1 as <- <- <-; auto 6]. apply bind_ok in E1 as (x & _ & E1). destruct (negb _ && _ && _); [|injection E1 as <- <- <-; auto 6].
    destruct (recheck_spec d e from did D) as (tm & Er). rewrite Er, Me in E1. apply bind_ok in E1 as (s & _ & E1). injection E1 as <- <- <-. split; [reflexivity|]. split; [reflexivity|]. split; [reflexivity|].
    unfold is_me, view in *. cbn [with_R into ifs d_addr d_addr6] in *. unfold own_addr in *. cbn [with_R into d_addr d_addr6] in *. split; [intros _; destruct (e_ifs e); reflexivity|destruct (e_ifs e); exact Me]. }
  destruct W as (-> & W1 & W2 & W3 & W4). cbv zeta in E. apply bind_ok in E as (q & _ & E).
  apply IH in E; [| |].
  - rewrite E. rewrite <- W1, <- W2. destruct (has_recv d1) eqn:Hr; cbn [with_Q add_received received has_recv].
    + rewrite <- app_assoc. rewrite Hr. reflexivity.
    + rewrite Hr. reflexivity.
  - destruct (has_recv d1); exact W3.
  - destruct (has_recv d1); exact W4.
Qed.
Lemma responses_extend : forall an d e from did d', responses d e from did an = Ok d' -> extends d d' (fun a => In a an).
Proof.
  induction an as [|a an IH]; intros d e from did d' E; cbn [responses] in E; [injection E as <-; apply extends_kin; [apply kin_refl|reflexivity]|].
  apply bind_ok in E as (r & _ & E). apply bind_ok in E as ([[d1 did1] skip] & E1 & E).
  assert (W : kin d d1 /\ received d1 = received d).
  { destruct r as [r|]; [|injection E1 as <- _ _; split; [apply kin_refl|reflexivity]]. apply bind_ok in E1 as (x & _ & E1). destruct (negb _ && _ && _); [|injection E1 as <- _ _; split; [apply kin_refl|reflexivity]].
    destruct (recheck d e from did) as [d2 l] eqn:Er. pose proof (recheck_kin _ _ _ _ _ _ Er) as G. destruct l; [injection E1 as <- _ _; exact G|]. apply bind_ok in E1 as (s & _ & E1). injection E1 as <- _ _. exact G. }
  destruct W as [W1 W2]. apply (extends_trans d d1); [apply extends_kin; assumption|].
  destruct skip; [apply (extends_more _ _ (fun b => In b an)); [intros b I; right; exact I|exact (IH _ _ _ _ _ E)]|]. cbv zeta in E. apply bind_ok in E as (q & _ & E).
  apply (extends_trans _ (if has_recv d1 then add_received d1 a else d1)); [apply heard_one; left; reflexivity|]. apply (extends_trans _ (with_Q (if has_recv d1 then add_received d1 a else d1) q)); [apply extends_kin; [split|]; reflexivity|].
  apply (extends_more _ _ (fun b => In b an)); [intros b I; right; exact I|exact (IH _ _ _ _ _ E)].
Qed.

(* questions *)
Definition same_question (q : question) (a : resource) : Prop := q_name q = rr_name a /\ q_type q = rr_type a.
Lemma same_q_iff : forall q a, same_q q a = true -> same_question q a.
Proof. intros q a H. unfold same_q in H. apply andb_true_iff in H as [A B]. apply Z.eqb_eq in A. apply bytes_eqb_eq in B. split; assumption. Qed.
Lemma known_extend : forall an d q x d' b, known_check d q x an = (d', b) -> extends d d' (fun a => In a an /\ same_question q a).
Proof.
  induction an as [|a an IH]; intros d q x d' b E; cbn [known_check] in E; [injection E as <- _; apply extends_kin; [apply kin_refl|reflexivity]|].
  assert (M : forall r, In r an /\ same_question q r -> In r (a :: an) /\ same_question q r) by (intros r [I S]; split; [right; exact I|exact S]).
  destruct (same_q q a) eqn:S; cbn [negb] in E; [|exact (extends_more _ _ _ _ M (IH _ _ _ _ _ E))]. cbv zeta in E.
  pose proof (heard_one d a (fun r => In r (a :: an) /\ same_question q r) (conj (or_introl eq_refl) (same_q_iff _ _ S))) as G.
  destruct (a_match a (rr x)); [injection E as <- _; exact G|]. apply (extends_trans _ _ _ _ G). exact (extends_more _ _ _ _ M (IH _ _ _ _ _ E)).
Qed.
Lemma probe_kin : forall an d e from did q r d' did' c, probe_check d e from did q r an = Ok (d', did', c) -> kin d d' /\ received d' = received d.
Proof.
  induction an as [|a an IH]; intros d e from did q r d' did' c E; cbn [probe_check] in E; [injection E as <- _ _; split; [apply kin_refl|reflexivity]|].
  destruct (negb (same_q q a)); [exact (IH _ _ _ _ _ _ _ _ _ E)|]. apply bind_ok in E as (x & _ & E). destruct (a_match a (rr x)); [exact (IH _ _ _ _ _ _ _ _ _ E)|].
  destruct (recheck d e from did) as [d1 l] eqn:Er. destruct (recheck_kin _ _ _ _ _ _ Er) as [G1 G2]. destruct l.
  - destruct (IH _ _ _ _ _ _ _ _ _ E) as [B1 B2]. split; [exact (kin_trans _ _ _ G1 B1)|congruence].
  - apply bind_ok in E as (s & _ & E). injection E as <- _ _. split; assumption.
Qed.
Lemma answer_extend : forall fuel d e from did q an r conf d' did' c, answer_loop fuel d e from did q an r conf = Ok (d', did', c) -> extends d d' (fun a => In a an /\ same_question q a).
Proof.
  induction fuel as [|fuel IH]; intros d e from did q an r conf d' did' c E; cbn [answer_loop] in E; [discriminate|].
  destruct r as [r|]; [|injection E as <- _ _; apply extends_kin; [apply kin_refl|reflexivity]].
  apply bind_ok in E as (n & _ & E). apply bind_ok in E as (x & _ & E). destruct (probes x && negb (modified x)).
  - apply bind_ok in E as ([[d1 did1] c1] & E1 & E). destruct (probe_kin _ _ _ _ _ _ _ _ _ _ E1) as [G1 G2]. apply (extends_trans _ d1); [apply extends_kin; assumption|exact (IH _ _ _ _ _ _ _ _ _ _ _ E)].
  - destruct (known_check d q x an) as [d1 b] eqn:Ek. apply (extends_trans _ d1); [exact (known_extend _ _ _ _ _ _ Ek)|]. destruct b; [exact (IH _ _ _ _ _ _ _ _ _ _ _ E)|].
    apply bind_ok in E as (s & _ & E). apply (extends_trans _ (with_R d1 s)); [apply extends_kin; [split|]; reflexivity|exact (IH _ _ _ _ _ _ _ _ _ _ _ E)].
Qed.
Lemma questions_extend : forall qd d e from did id an d', questions d e from did id qd an = Ok d' -> extends d d' (fun a => In a an /\ exists q, In q qd /\ same_question q a).
Proof.
  induction qd as [|q qd IH]; intros d e from did id an d' E; cbn [questions] in E; [injection E as <-; apply extends_kin; [apply kin_refl|reflexivity]|].
  assert (M : forall r, (In r an /\ exists p, In p qd /\ same_question p r) -> In r an /\ exists p, In p (q :: qd) /\ same_question p r) by (intros r (I & p & J & S); split; [exact I|]; exists p; split; [right; exact J|exact S]).
  destruct (negb (q_class q =? class d)); [exact (extends_more _ _ _ _ M (IH _ _ _ _ _ _ _ E))|]. apply bind_ok in E as (r & _ & E). destruct r as [r|]; [|exact (extends_more _ _ _ _ M (IH _ _ _ _ _ _ _ E))].
  destruct (bytes_eqb (q_name q) DISCO_NAME).
  - cbv zeta in E. apply bind_ok in E as (s & _ & E). apply (extends_trans _ (with_R (with_disco d true) s)); [apply extends_kin; [split|]; reflexivity|exact (extends_more _ _ _ _ M (IH _ _ _ _ _ _ _ E))].
  - apply bind_ok in E as ([[d1 did1] c] & E1 & E). cbv zeta in E. apply (extends_trans _ d1).
    + refine (extends_more _ _ _ _ _ (answer_extend _ _ _ _ _ _ _ _ _ _ _ _ E1)). intros a [I S]. split; [exact I|]. exists q. split; [left; reflexivity|exact S].
    + refine (extends_trans _ _ _ _ _ (extends_more _ _ _ _ M (IH _ _ _ _ _ _ _ E))). destruct (negb c && _); apply extends_kin; try reflexivity; try apply kin_refl. split; reflexivity.
Qed.
Lemma in_extend : forall d e m from d' n, mdnsd_in d e m from = Ok (d', n) -> extends d d' (brings m).
Proof.
  intros d e m from d' n E. unfold mdnsd_in in E. destruct (is_shutdown d) eqn:Sd; [injection E as <- _; apply extends_kin; [apply kin_refl|reflexivity]|]. cbv zeta in E.
  destruct (is_local (with_now d (e_now e)) e from) as [d1 l] eqn:El. destruct (local_kin _ _ _ _ _ El) as [G1 G2].
  assert (G : extends d d1 (brings m)) by (apply extends_kin; assumption). destruct l; [injection E as <- _; exact G|]. apply bind_ok in E as (d2 & E & E'). injection E' as <- _. apply (extends_trans _ d1 _ _ G).
  destruct (h_qr (m_header m) =? 0) eqn:Qr.
  - refine (extends_more _ _ _ _ _ (questions_extend _ _ _ _ _ _ _ _ E)). intros a (I & q & J & S1 & S2). split; [exact I|]. intros _. exists q. auto.
  - refine (extends_more _ _ _ _ _ (responses_extend _ _ _ _ _ _ E)). intros a I. split; [exact I|]. intros Z. lia.
Qed.

(* Every other call *)
Lemma out_quiet : forall d e d' m n, mdnsd_out d e = Ok (d', m, n) -> kin d d' /\ received d' = received d.
Proof.
  intros d e d' m n K. assert (Z : kin d d' /\ received d' = received d); [|exact Z]. unfold mdnsd_out in K. cbv zeta in K. destruct (uans (R (with_now d (e_now e)))) as [|u us].
  2:{ apply bind_ok in K as ([s m1] & _ & K). injection K as <- _ _. split; [split|]; reflexivity. }
  apply bind_ok in K as ([[[s1 m1] seen1] r1] & _ & K). apply bind_ok in K as ([[[s2 m2] seen2] r2] & _ & K).
  destruct (is_shutdown _); [injection K as <- _ _; split; [split|]; reflexivity|].
  apply bind_ok in K as ([[[s3 m3] seen3] r3] & _ & K). apply bind_ok in K as ([m4 seen4] & _ & K). destruct (negb (r3 =? 0)); [injection K as <- _ _; split; [split|]; reflexivity|].
  apply bind_ok in K as ([[s5 m5] r5] & _ & K). destruct (negb (r5 =? 0)); [injection K as <- _ _; split; [split|]; reflexivity|].
  apply bind_ok in K as ([[q6 m6] r6] & _ & K). destruct (_ <? _); [apply bind_ok in K as (q7 & _ & K)|]; injection K as <- _ _; split; try split; reflexivity.
Qed.
Lemma sleep_quiet : forall d e d' t, mdnsd_sleep d e = Ok (d', t) -> kin d d' /\ received d' = received d.
Proof.
  intros d e d' t E. unfold mdnsd_sleep in E. cbv zeta in E.
  destruct (uans (R d)); [destruct (a_now (R d))|]; try (injection E as <- _; split; [split|]; reflexivity).
  destruct (a_pause _); [injection E as <- _; split; [split|]; reflexivity|]. destruct (probing _); [injection E as <- _; split; [split|]; reflexivity|]. destruct (a_publish _); [injection E as <- _; split; [split|]; reflexivity|].
  destruct (negb _); [injection E as <- _; split; [split|]; reflexivity|]. destruct (_ <? 0); [injection E as <- _; split; [split|]; reflexivity|].
  apply bind_ok in E as ([s x] & _ & E). injection E as <- _. split; [split|]; reflexivity.
Qed.
Lemma other_quiet : forall d e o d' x, (forall m from, o <> OIn m from) -> step d e o = Ok (d', x) ->
  received d' = received d /\ has_recv d' = (match o with ORegister b => b | _ => has_recv d end) /\ is_shutdown d' = (match o with OShutdown => true | _ => is_shutdown d end).
Proof.
  intros d e o d' x Ni E. destruct o; cbn [step] in E;
    try (apply on_recs_ok in E as (s & _ & -> & _); auto; fail); try (apply on_new_ok in E as (s & r & _ & -> & _); auto; fail); try (injection E as <- _; auto; fail).
  - destruct (bytes_eqb _ _); [injection E as <- _; auto|]. apply bind_ok in E as (s & _ & E); injection E as <- _; auto.
  - destruct (bytes_eqb _ _); [injection E as <- _; auto|]. apply bind_ok in E as (s & _ & E); injection E as <- _; auto.
  - apply bind_ok in E as (s & _ & E). injection E as <- _. auto.
  - apply bind_ok in E as (s & _ & E). injection E as <- _. auto.
  - destruct (Ni _ _ eq_refl).
  - apply bind_ok in E as ([[d2 m] n] & E1 & E). injection E as <- _. destruct (out_quiet _ _ _ _ _ E1) as [[A B] C]. auto.
  - apply bind_ok in E as ([d2 t] & E1 & E). injection E as <- _. destruct (sleep_quiet _ _ _ _ E1) as [[A B] C]. auto.
Qed.
Lemma quiet : forall d e o d' x, (forall m from, o <> OIn m from) -> step d e o = Ok (d', x) -> received d' = received d.
Proof. intros d e o d' x N E. exact (proj1 (other_quiet d e o d' x N E)). Qed.

Lemma is_in_dec : forall o, (exists m from, o = OIn m from) \/ (forall m from, o <> OIn m from).
Proof. intros o. destruct o; eauto; right; discriminate. Qed.

Lemma listening_has : forall d0 l d, history d0 l d -> has_recv d0 = false -> is_shutdown d0 = false -> has_recv d = listening l /\ (is_shutdown d = true -> shut l).
Proof.
  intros d0 l d Hh R0 S0. induction Hh as [|l d e o x d' Hh IH L E]; [split; [exact R0|congruence]|]. destruct IH as [I1 I2]. unfold listening. rewrite fold_left_app. fold (listening l). cbn [fold_left ev_call].
  assert (U : forall l' d2, is_shutdown d2 = true -> is_shutdown d = is_shutdown d2 -> shut (l ++ l')) by (intros l' d2 A B; rewrite <- B in A; destruct (I2 A) as (ev & I & C); exists ev; split; [apply in_or_app; left; exact I|exact C]).
  destruct (is_in_dec o) as [(m & from & ->)|Ni].
  - cbn [step] in E. apply bind_ok in E as ([d2 n] & E1 & E). injection E as <- <-. destruct (in_extend _ _ _ _ _ _ E1) as [[K1 K2] _]. split; [congruence|]. intros Sd. apply (U _ d2 Sd). congruence.
  - destruct (other_quiet d e o d' x Ni E) as (_ & A & B). split; [rewrite A, I1; destruct o; reflexivity|]. intros Sd.
    assert (W : o = OShutdown \/ is_shutdown d' = is_shutdown d) by (destruct o; auto). destruct W as [->|W]; [|exact (U _ d' Sd (eq_sym W))].
    eexists. split; [apply in_or_app; right; left; reflexivity|reflexivity].
Qed.

Lemma answers_heard : forall t cls frm l d e m from d' x, 0 <= fst t -> history (mdnsd_new t cls frm) l d -> ~ shut l -> foreign d e from -> h_qr (m_header m) <> 0 ->
  step d e (OIn m from) = Ok (d', x) -> received d' = received d ++ (if listening l then m_an m else []).
Proof.
  intros t cls frm l d e m from d' x N Hh Ns F Qr E. destruct (listening_has _ _ _ Hh eq_refl eq_refl) as [A B]. rewrite <- A.
  assert (Sd : is_shutdown d = false) by (destruct (is_shutdown d) eqn:Sd; [destruct (Ns (B eq_refl))|reflexivity]).
  destruct (in_enters d e m from Sd F) as (i & tm & Ii & Ei). cbv zeta in Ei. replace (h_qr (m_header m) =? 0) with false in Ei by lia. cbn [step] in E. rewrite Ei in E.
  apply bind_ok in E as ([d2 n] & E & E'). injection E' as <- _. apply bind_ok in E as (d3 & E & E'). injection E' as <- _.
  apply responses_heard in E; [exact E|discriminate|exact (into_foreign d e from i tm F Ii)].
Qed.

Lemma only_heard : forall t cls frm l d a, 0 <= fst t -> history (mdnsd_new t cls frm) l d -> In a (received d) ->
  exists l1 ev l2 m from, l = l1 ++ ev :: l2 /\ listening l1 = true /\ ev_call ev = OIn m from /\ brings m a /\ ~ own (ev_before ev) from /\ (forall i, snapshot (ev_before ev) (ev_env ev) = Some i -> ~ of_interface i from) /\ ~ shut l1.
Proof.
  intros t cls frm l d a N Hh. remember (mdnsd_new t cls frm) as d0 eqn:D0. induction Hh as [|l d e o x d' Hh IH L E]; [subst; intros []|]. intros I.
  assert (W : In a (received d) \/ exists m from, o = OIn m from /\ ~ In a (received d)).
  { destruct (is_in_dec o) as [(m & from & ->)|Ni]; [|left; rewrite <- (quiet d e o d' x Ni E); exact I]. destruct (In_dec (fun p q : resource => ltac:(repeat decide equality)) a (received d)) as [J|J]; [left; exact J|right; eauto]. }
  destruct W as [W|(m & from & -> & W)].
  - destruct (IH W) as (l1 & ev & l2 & m & from & -> & P). exists l1, ev, (l2 ++ [mkevent d e o x d']), m, from. split; [rewrite <- app_assoc; reflexivity|exact P].
  - exists l, (mkevent d e (OIn m from) x d'), [], m, from. split; [reflexivity|]. destruct (listening_has _ _ _ Hh ltac:(subst; reflexivity) ltac:(subst; reflexivity)) as [A B]. cbn [ev_call ev_before ev_env].
    destruct (local_dec d e from) as [Lo|[F1 F2]].
    { exfalso. destruct (own_ignored d e m from Lo) as (d2 & n & E2 & _ & _ & _ & Er). rewrite E in E2. injection E2 as -> _. rewrite Er in I. contradiction. }
    assert (Sd : is_shutdown d = false). { destruct (is_shutdown d) eqn:Sd; [|reflexivity]. exfalso. cbn [step] in E. unfold mdnsd_in in E. rewrite Sd in E. injection E as <- _. contradiction. }
    pose proof E as E0. cbn [step] in E. apply bind_ok in E as ([d2 n] & E1 & E). injection E as <- <-. destruct (in_extend _ _ _ _ _ _ E1) as (K & ll & Er & Pr & Nr).
    rewrite Er in I. apply in_app_or in I as [I|I]; [contradiction|]. split.
    { rewrite <- A. destruct (has_recv d) eqn:Hr; [reflexivity|]. rewrite (Nr eq_refl) in I. destruct I. }
    split; [reflexivity|]. split; [exact (Pr a I)|]. split; [exact F1|]. split; [exact F2|]. intros Sh.
    assert (C : forall d0 l d, history d0 l d -> shut l -> is_shutdown d = true).
    { clear. intros d0 l d Hh (ev & I & C). induction Hh as [|l d e o x d' Hh IH L E]; [destruct I|]. apply in_app_or in I as [I|[<-|[]]].
      - exact (step_shutdown d e o d' x (IH I) E).
      - cbn [ev_call] in C. subst o. cbn [step] in E. apply bind_ok in E as (s & _ & E). injection E as <- _. reflexivity. }
    rewrite (C _ _ _ Hh Sh) in Sd. discriminate.
Qed.
