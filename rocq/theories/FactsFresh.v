(* Supporting proofs for PropFresh.v. *)
From Verif Require Import Base Lemmas Hash HashProofs Wire Rec Qry Out In Api RecInv RecSafe RecOps RecAddr OutSafe QryInv QryOps CacheOps QryReg QryLoop InSafe InLoop InResp OutPub OutProbe OutExtra OutAll OutSpec Shut DaemonInv
  SpecDaemon FactsCalls FactsLookup FactsItems FactsIn FactsOut SpecCache FactsCache FactsSleep FactsSpace SpecReent FactsData SpecFresh.

Lemma step_time : forall d e o d' x, reach d -> legal d e o -> step d e o = Ok (d', x) -> now d' = now d \/ now d' = e_now e.
Proof.
  intros d e o d' x K L E. pose proof (reach_dinv d K) as (qs & H & C). destruct (records_only o) eqn:RO.
  { destruct (records_only_Q d e o d' x RO E) as [_ En]. auto. }
  destruct o; try discriminate.
  - cbn [step] in E. apply bind_ok in E as (q & _ & E). injection E as <- _. auto.
  - destruct L as [N W]. destruct (mdnsd_in_spec d e m from qs H C N W) as (d2 & n & qs' & E' & A & H' & C' & _). cbn [step] in E. rewrite E' in E. cbn [bind] in E. injection E as <- <-.
    destruct A as [?|i tm|i0 tm0 d2 qs' ? ? ? ? EA|i0 tm0 d2 qs' ? ? ? ? EA]; auto.
    + set (d1 := into (with_now d (e_now e)) (R d) i0 tm0 (received d)) in *.
      destruct (questions_sound (m_qd m) d1 e from false (m_id m) (m_an m) qs H ltac:(discriminate)) as (s' & i' & tm' & L' & b & qs2 & Cf & E2 & _). rewrite EA in E2. injection E2 as ->. right. reflexivity.
    + set (d1 := into (with_now d (e_now e)) (R d) i0 tm0 (received d)) in *. destruct C as (C1 & C2 & C3 & C4).
      destruct (responses_sound (m_an m) d1 e from false qs H C1 N W ltac:(discriminate)) as (s' & q' & i' & tm' & L' & qs2 & U & Cf & E2 & _). rewrite EA in E2. injection E2 as ->. right. reflexivity.
  - cbn [step] in E. destruct (mdnsd_out d e) as [[[d2 m] n]| | |] eqn:E'; try discriminate. cbn [bind] in E. injection E as <- <-.
    assert (E2 : step d e OOut = Ok (d2, RMsg m n)) by (cbn [step]; rewrite E'; reflexivity).
    destruct (out_cases d e d2 m n K L E2) as (qs1 & qs' & H1 & C1 & O & _). destruct O; right; reflexivity.
  - cbn [step] in E. destruct (mdnsd_sleep d e) as [[d2 t]| | |] eqn:E'; try discriminate. cbn [bind] in E. injection E as <- <-.
    assert (E2 : step d e OSleep = Ok (d2, RTime t)) by (cbn [step]; rewrite E'; reflexivity).
    destruct (sleep_cases d e d2 t K E2) as (qs1 & qs' & _ & _ & O & _). destruct O; cbn [with_R with_now now]; auto.
Qed.

(* With nothing else to send, the queries have their turn *)
Lemma quiet_turn : forall d e d' m k n ty q x, reach d -> legal d e OOut -> step d e OOut = Ok (d', RMsg m k) -> nothing_waits d -> FactsSleep.on_time d -> fst (now d) <= fst (e_now e) ->
  qh (Q d) q = Some x -> q_next x <> 0 -> q_next x <= fst (e_now e) -> is_for x n ty ->
  nothing_waits d' /\ (QryLoop.asks (fst (e_now e)) x = true -> asks_for n ty (mkevent d e OOut (RMsg m k) d') = true) /\
  forall p y', qh (Q d') p = Some y' -> exists y, qh (Q d) p = Some y /\ y' = after_turn (Q d) (fst (e_now e)) y.
Proof.
  intros d e d' m k n ty q x K L E (W1 & W2 & W3) (T0 & J) M Ex Nx Dx Fx. destruct (J q x Ex Nx) as [J1 J2]. destruct (out_cases d e d' m k K L E) as (qs & qs' & H & C & O & H'). destruct C as (C1 & C2 & C3 & C4).
  assert (Z : forall j, qs j = []) by (intros j; apply (none_nil d qs j H); apply W2).
  unfold asks_for. cbn [ev_call ev_result]. clear E.
  destruct O as [u us X0 added Eu EX G|N restN P restP s' Eu Sd0 E1 E2 Dp A Ua Cf Bl|N restN P restP A restA s' added all seen Eu Sd0 D Eall Nall Eseen Af Ua Tp Tb Cf Tq G|N restN A restA s' l Eu Sd0 D E1 E2 El La Af Ua Cf Tp Tb Tq|N restN A restA s' q1 q' l m ret T V Eu Sd0 D E1 E2 El La Af Ua Cf Tp Tb Tq QO Ql Sh Zq Uq CK TO G].
  - congruence.
  - congruence.
  - exfalso. destruct D as [D1 D2 D3 _ _ _ _ _]. rewrite !Z in *. symmetry in D1, D2, D3. apply app_eq_nil in D1 as [-> _]. apply app_eq_nil in D2 as [-> _]. apply app_eq_nil in D3 as [-> _].
    subst all. apply Nall. reflexivity.
  - exfalso. apply La. subst l. unfold probe_due. destruct (_ <=? 0); [rewrite Z|]; reflexivity.
  - destruct D as [D1 D2 D3 _ _ _ _ _]. split; [|split].
    + split; [exact Ua|]. split; [|exact Sd0]. intros j r Wt. apply (waits_iff _ _ j r H') in Wt. subst l. unfold probe_due, on in Wt. rewrite Z in *.
      symmetry in D1, D3. apply app_eq_nil in D1 as [_ ->]. apply app_eq_nil in D3 as [_ ->]. destruct j; cbn [queue_eqb] in Wt; rewrite ?Z in Wt; cbn in Wt. all: try (destruct (tvdiff _ _ <=? 0); cbn in Wt). all: destruct Wt.
    + cbn [o_qr o_calls negb andb]. intros As. unfold queries_out in QO. replace (negb (checkq (Q d) =? 0) && (checkq (Q d) <=? fst (e_now e))) with true in QO by lia.
      destruct QO as (_ & (ks & Em & _) & _). rewrite Em, items_query, existsb_app. apply orb_true_iff. left. apply existsb_exists. destruct Fx as [F1 F2].
      exists (IQuestion n ty (class d)). split; [|apply is_question_iff; eauto]. apply in_map_iff. exists x. split; [rewrite F1, F2; reflexivity|].
      apply filter_In. split; [|exact As]. apply queries_at_iff. exists q. split; [apply (qi_live _ C1); congruence|exact Ex].
    + intros p y' Ey. cbn [with_expireall with_Q with_R with_now Q] in Ey. apply (sh_qh _ _ _ _ Sh) in Ey. unfold queries_out in QO. replace (negb (checkq (Q d) =? 0) && (checkq (Q d) <=? fst (e_now e))) with true in QO by lia.
      destruct QO as (Q1 & _). rewrite Q1 in Ey. destruct (qh (Q d) p) as [y|] eqn:Eq; [|discriminate]. injection Ey as <-. exists y. auto.
Qed.

Lemma reset_bound : forall n ty l c, (forall c, In c l -> 8 <= a_ttl (c_rr c)) -> In c l -> c_match n ty c = true -> 0 < reset_try n ty l <= a_ttl (c_rr c) - 7.
Proof.
  intros n ty l c. unfold reset_try. assert (G : forall l b, (forall c, In c l -> 8 <= a_ttl (c_rr c)) -> 0 <= b ->
    let t := fold_left (fun t c => if c_match n ty c then if (t =? 0) || (a_ttl (c_rr c) - 7 <? t) then a_ttl (c_rr c) - 7 else t else t) l b in
    0 <= t /\ (0 < b -> 0 < t <= b) /\ forall c, In c l -> c_match n ty c = true -> 0 < t <= a_ttl (c_rr c) - 7).
  { clear. induction l as [|c l IH]; intros b L B; cbn [fold_left]; [split; [exact B|]; split; [lia|intros c []]|].
    pose proof (L c (or_introl eq_refl)) as Lc. specialize (IH (if c_match n ty c then if (b =? 0) || (a_ttl (c_rr c) - 7 <? b) then a_ttl (c_rr c) - 7 else b else b) ltac:(intros x I; apply L; right; exact I)).
    assert (B' : 0 <= (if c_match n ty c then if (b =? 0) || (a_ttl (c_rr c) - 7 <? b) then a_ttl (c_rr c) - 7 else b else b)) by (destruct (c_match n ty c); [destruct (_ || _)|]; lia).
    destruct (IH B') as (G1 & G2 & G3). cbv zeta. split; [exact G1|]. split.
    - intros P. revert G2. destruct (c_match n ty c); [destruct ((b =? 0) || (a_ttl (c_rr c) - 7 <? b)) eqn:D|]; lia.
    - intros y [<-|I] My; [|apply G3; assumption]. rewrite My in G2. revert G2. rewrite My. destruct ((b =? 0) || (a_ttl (c_rr c) - 7 <? b)) eqn:D; lia. }
  intros L I M. destruct (G l 0 L ltac:(lia)) as (_ & _ & G3). apply G3; assumption.
Qed.

(* How the query stands after it was asked at second T *)
Definition waiting (T x : Z) (d : daemon) (y : query) : Prop :=
  0 < q_next y /\ (1 <= q_tries y <= 3 /\ q_next y = T + q_tries y \/ q_tries y = 0 /\ (q_next y <= x - 7 \/ q_next y <= fst (now d))).

Lemma after_for : forall s t y n ty, is_for (after_turn s t y) n ty <-> is_for y n ty.
Proof. intros s t y n ty. unfold after_turn. destruct (QryLoop.asks t y); [reflexivity|]. destruct (rests t y); reflexivity. Qed.

Lemma turn_waiting : forall T x d e d' y n ty, reach d -> 0 <= fst (e_now e) -> waiting T x d y -> is_for y n ty -> QryLoop.asks (fst (e_now e)) y = false -> fst (now d) <= fst (now d') ->
  (T + 3 <= fst (e_now e) -> exists c, answers_to d n ty c /\ fst (e_now e) < good_until c <= x) -> waiting T x d' (after_turn (Q d) (fst (e_now e)) y).
Proof.
  intros T x d e d' y n ty K N (W1 & W) F As Fw A. unfold after_turn. rewrite As. destruct (rests (fst (e_now e)) y) eqn:Rs.
  - unfold rests in Rs. destruct W as [[_ W]|[W _]]; [|lia]. destruct A as (c & (Hc & A1 & A2) & A3 & A4); [lia|]. unfold good_until in *. destruct (reach_dinv d K) as (qs & _ & (C1 & C2 & C3 & C4)). destruct F as [F1 F2].
    assert (Ic : In c (filter (alive (fst (e_now e))) (centries (Q d) (cbucket (q_nm y))))).
    { apply filter_In. split; [|unfold alive; lia]. apply (holds_bucket _ _ K) in Hc as (i & Ic). pose proof (qi_cbucket _ C1 i c Ic) as B. rewrite F1, <- A1, B. exact Ic. }
    assert (Mc : c_match (q_nm y) (q_ty y) c = true) by (apply c_match_iff; split; [congruence|]; rewrite F2; destruct A2; auto).
    assert (L8 : forall c, In c (filter (alive (fst (e_now e))) (centries (Q d) (cbucket (q_nm y)))) -> 8 <= a_ttl (c_rr c)) by (intros z I; apply filter_In in I as [I _]; exact (C3 _ z I)).
    pose proof (reset_bound _ _ _ _ L8 Ic Mc). split; cbn [set_qnext q_next q_tries]; [lia|]. right. split; [reflexivity|left; lia].
  - split; [exact W1|]. destruct W as [W|[W [W2|W2]]]; [left; exact W|right; split; [exact W|left; exact W2]|right; split; [exact W|right; lia]].
Qed.

Lemma waiting_kept : forall t0 cls frm l d, 0 < fst t0 -> history (mdnsd_new t0 cls frm) l d -> forward l ->
  forall l1 ev1 l2 n ty x, l = l1 ++ ev1 :: l2 -> asks_for n ty ev1 = true -> (forall ev, In ev l2 -> asks_for n ty ev = false) ->
  (forall ev, In ev (ev1 :: l2) -> not_probing (ev_before ev) n) ->
  (forall ev, In ev l2 -> fst (e_now (ev_env ev1)) + 3 <= fst (e_now (ev_env ev)) -> exists c, answers_to (ev_before ev) n ty c /\ fst (e_now (ev_env ev)) < good_until c <= x) ->
  forall q y, qh (Q d) q = Some y -> is_for y n ty -> waiting (fst (e_now (ev_env ev1))) x d y.
Proof.
  intros t0 cls frm l d T0 Hh. induction Hh as [|l d e o out d' Hh IH L E]; intros Fw l1 ev1 l2 n ty x El As1 As2 NP Lv q' y' Eq' Fy'; [destruct l1; discriminate|].
  pose proof (history_reach _ _ _ (reach_new t0 cls frm ltac:(lia)) Hh) as K. destruct (reach_dinv d K) as (qs & _ & (C1 & C2 & _)).
  assert (Fl : forward l) by (intros ev I; apply Fw, in_or_app; left; exact I).
  pose proof (Fw (mkevent d e o out d') ltac:(apply in_or_app; right; left; reflexivity)) as Fe. cbn [ev_before ev_env] in Fe.
  assert (Nw : fst (now d) <= fst (now d')) by (destruct (step_time d e o d' out K L E) as [->| ->]; lia). pose proof L as [N _].
  assert (Nt : 0 <= fst (e_now e)) by (destruct (history_on_time _ _ _ _ _ T0 Hh Fl); lia).
  destruct (last_cases _ _ _ _ _ _ El) as [(-> & -> & ->)|(l3 & -> & ->)].
  - assert (o = OOut) by (unfold asks_for in As1; cbn [ev_call] in As1; destruct o; try discriminate; reflexivity). subst o.
    cbn [step] in E. apply bind_ok in E as ([[d2 m] k] & E' & E). injection E as <- <-.
    assert (E : step d e OOut = Ok (d2, RMsg m k)) by (cbn [step]; rewrite E'; reflexivity). clear E'.
    destruct (out_turn d e d2 m k n ty K L E (NP _ (or_introl eq_refl))) as [G1 G2]. cbv zeta in G1, G2. destruct (G1 As1) as (q & z & Ez & Fz & Az).
    destruct (G2 q' y' Eq') as (y & Ey & [[-> _]|[_ B]]); [|congruence]. apply after_for in Fy'.
    assert (q' = q) by (destruct Fz, Fy'; apply (qi_one _ C1 q' q y z Ey Ez); congruence). subst q'. assert (y = z) by congruence. subst y.
    pose proof (C2 q z Ez) as P. unfold after_turn. rewrite Az. unfold QryLoop.asks in Az. unfold waiting. cbn [set_qnext q_next q_tries ev_env]. lia.
  - assert (IH' : forall q y, qh (Q d) q = Some y -> is_for y n ty -> waiting (fst (e_now (ev_env ev1))) x d y).
    { apply (IH Fl l1 ev1 l3 n ty x eq_refl As1).
      - intros ev I. apply As2, in_or_app. left. exact I.
      - intros ev I. apply NP. destruct I as [<-|I]; [left; reflexivity|right; apply in_or_app; left; exact I].
      - intros ev I. apply Lv, in_or_app. left. exact I. }
    pose proof (As2 _ ltac:(apply in_or_app; right; left; reflexivity)) as Ae. pose proof (Lv _ ltac:(apply in_or_app; right; left; reflexivity)) as Le. cbn [ev_env ev_before] in Le.
    assert (Dec : o = OOut \/ o <> OOut) by (destruct o; (left; reflexivity) || (right; discriminate)). destruct Dec as [->|No].
    + cbn [step] in E. apply bind_ok in E as ([[d2 m] k] & E' & E). injection E as <- <-.
      assert (E : step d e OOut = Ok (d2, RMsg m k)) by (cbn [step]; rewrite E'; reflexivity). clear E'.
      destruct (out_turn d e d2 m k n ty K L E (NP _ ltac:(right; apply in_or_app; right; left; reflexivity))) as [_ G2]. cbv zeta in G2.
      destruct (G2 q' y' Eq') as (y & Ey & [[-> B]|[-> _]]).
      * apply after_for in Fy'. pose proof (IH' q' y Ey Fy') as W. apply (turn_waiting _ _ d e d2 y n ty); auto.
        destruct (QryLoop.asks (fst (e_now e)) y) eqn:Az; [rewrite (B Fy' eq_refl) in Ae; discriminate|reflexivity].
      * destruct (IH' q' y Ey Fy') as (W1 & W2). split; [exact W1|]. destruct W2 as [W2|[W2 W3]]; [left; exact W2|right; split; [exact W2|lia]].
    + destruct (other_turn d e o d' out No K L E q' y' Eq') as [(y & Ey & B1 & B2 & B3 & B4)|(cb & B & By)].
      * destruct Fy' as [F1 F2]. destruct (IH' q' y Ey ltac:(split; congruence)) as (W1 & W2). unfold waiting. rewrite B3, B4. split; [exact W1|]. destruct W2 as [W2|[W2 W3]]; [left; exact W2|right; split; [exact W2|lia]].
      * rewrite By. destruct (history_on_time _ _ _ _ _ T0 Hh Fl) as [P _]. split; cbn [q_next q_tries]; [exact P|right; split; [reflexivity|right; exact Nw]].
Qed.

Lemma asked_again : forall t0 cls frm l1 ev1 l2 d n ty x e d2 m k e2 d3 m2 k2, 0 < fst t0 -> history (mdnsd_new t0 cls frm) (l1 ++ ev1 :: l2) d -> forward (l1 ++ ev1 :: l2) ->
  asks_for n ty ev1 = true -> (forall ev, In ev l2 -> asks_for n ty ev = false) ->
  (forall ev, In ev (ev1 :: l2) -> not_probing (ev_before ev) n) ->
  (forall ev, In ev l2 -> fst (e_now (ev_env ev1)) + 3 <= fst (e_now (ev_env ev)) -> exists c, answers_to (ev_before ev) n ty c /\ fst (e_now (ev_env ev)) < good_until c <= x) ->
  asked_now d n ty -> nothing_waits d -> fst (now d) <= fst (e_now e) -> fst (e_now (ev_env ev1)) + 3 <= fst (e_now e) -> x - 7 <= fst (e_now e) ->
  (exists c, answers_to d n ty c /\ fst (e_now e) < good_until c <= x) ->
  legal d e OOut -> step d e OOut = Ok (d2, RMsg m k) -> asked_now d2 n ty -> fst (e_now e) <= fst (e_now e2) ->
  legal d2 e2 OOut -> step d2 e2 OOut = Ok (d3, RMsg m2 k2) ->
  asks_for n ty (mkevent d e OOut (RMsg m k) d2) = true \/ asks_for n ty (mkevent d2 e2 OOut (RMsg m2 k2) d3) = true.
Proof.
  intros t0 cls frm l1 ev1 l2 d n ty x e d2 m k e2 d3 m2 k2 T0 Hh Fw As1 As2 NP Lv (y & (q & _ & Ey) & Fy) Nw Fe S1 S2 Lc L E (y2 & (q2 & _ & Ey2) & Fy2) Fe2 L2 E2.
  pose proof (history_reach _ _ _ (reach_new t0 cls frm ltac:(lia)) Hh) as K. destruct (reach_dinv d K) as (qs & _ & (C1 & C2 & _)).
  pose proof (waiting_kept t0 cls frm _ d T0 Hh Fw l1 ev1 l2 n ty x eq_refl As1 As2 NP Lv q y Ey Fy) as W. pose proof W as (W1 & W2).
  pose proof (history_on_time _ _ _ _ _ T0 Hh Fw) as OT. pose proof OT as [P0 _].
  destruct (quiet_turn d e d2 m k n ty q y K L E Nw OT Fe Ey ltac:(lia) ltac:(lia) Fy) as (Nw2 & G1 & G2).
  destruct (QryLoop.asks (fst (e_now e)) y) eqn:Az; [left; exact (G1 eq_refl)|right].
  destruct (G2 q2 y2 Ey2) as (z & Ez & Ez2). assert (Fz : is_for z n ty) by (rewrite Ez2 in Fy2; apply after_for in Fy2; exact Fy2).
  assert (q2 = q) by (destruct Fz, Fy; apply (qi_one _ C1 q2 q z y Ez Ey); congruence). subst q2. assert (z = y) by congruence. subst z.
  assert (Rs : rests (fst (e_now e)) y = true) by (unfold rests; unfold QryLoop.asks in Az; lia).
  assert (N2 : now d2 = now d \/ now d2 = e_now e) by exact (step_time d e OOut d2 _ K L E). assert (Nn : fst (now d) <= fst (now d2)) by (destruct N2 as [->| ->]; lia).
  pose proof (turn_waiting _ x d e d2 y n ty K ltac:(lia) W Fy Az Nn ltac:(intros _; exact Lc)) as (V1 & V2). rewrite <- Ez2 in V1, V2.
  assert (T3 : q_tries y2 = 0) by (rewrite Ez2; unfold after_turn; rewrite Az, Rs; reflexivity).
  assert (OT2 : FactsSleep.on_time d2) by exact (step_on_time d e OOut d2 _ K L E Fe OT).
  assert (Fe3 : fst (now d2) <= fst (e_now e2)) by (destruct N2 as [->| ->]; lia).
  destruct (quiet_turn d2 e2 d3 m2 k2 n ty q y2 (reach_step _ _ _ _ _ K L E) L2 E2 Nw2 OT2 Fe3 Ey2 ltac:(lia) ltac:(lia) Fy2) as (_ & G3 & _).
  apply G3. unfold QryLoop.asks. lia.
Qed.

(* A query at rest stays at rest *)
Lemma rests_on : forall d0 l d n ty, reach d0 -> (forall q y, qh (Q d0) q = Some y -> is_for y n ty -> q_next y = 0) -> history d0 l d ->
  (forall ev, In ev l -> (forall cb, ev_call ev <> OQuery n ty (Some cb)) /\ not_probing (ev_before ev) n) ->
  askings n ty l = [] /\ forall q y, qh (Q d) q = Some y -> is_for y n ty -> q_next y = 0.
Proof.
  intros d0 l d n ty K0 Z0 Hh. induction Hh as [|l d e o out d' Hh IH L E]; intros A; [split; [reflexivity|exact Z0]|].
  pose proof (history_reach _ _ _ K0 Hh) as K. destruct IH as [IH1 IH2]. { intros ev I. apply A. apply in_or_app. left. exact I. }
  destruct (A (mkevent d e o out d') ltac:(apply in_or_app; right; left; reflexivity)) as (A1 & A2). cbn [ev_call ev_before] in A1, A2. clear A.
  unfold askings in *. rewrite filter_app, map_app, IH1. cbn [filter app].
  assert (Dec : o = OOut \/ o <> OOut) by (destruct o; (left; reflexivity) || (right; discriminate)). destruct Dec as [->|No].
  - cbn [step] in E. apply bind_ok in E as ([[d2 m] k] & E' & E). injection E as <- <-.
    assert (E : step d e OOut = Ok (d2, RMsg m k)) by (cbn [step]; rewrite E'; reflexivity). clear E'.
    destruct (out_turn d e d2 m k n ty K L E A2) as [T1 T2]. cbv zeta in T1, T2. set (ev := mkevent d e OOut (RMsg m k) d2) in *. split.
    + destruct (asks_for n ty ev) eqn:Af; [|reflexivity]. destruct (T1 eq_refl) as (q & x & Eq & Fx & As). pose proof (IH2 q x Eq Fx) as P. unfold QryLoop.asks in As. lia.
    + intros q y' Eq Fy. destruct (T2 q y' Eq) as (y & Ey & [[-> _]|[-> _]]); [|exact (IH2 q y Ey Fy)]. apply after_for in Fy. pose proof (IH2 q y Ey Fy) as P.
      unfold after_turn, QryLoop.asks, rests. rewrite P. exact P.
  - assert (Nf : asks_for n ty (mkevent d e o out d') = false) by (unfold asks_for; cbn [ev_call ev_result]; destruct o; try reflexivity; contradiction). rewrite Nf. split; [reflexivity|].
    intros q x Ex [F1 F2]. destruct (other_turn d e o d' out No K L E q x Ex) as [(y & Ey & B1 & B2 & B3 & B4)|(cb & B & _)].
    + rewrite B3. apply (IH2 q y Ey). split; congruence.
    + exfalso. apply (A1 cb). rewrite <- F1, <- F2. exact B.
Qed.
