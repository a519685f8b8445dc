(* Facts behind the theorems on mdnsd_sleep and on the delay of replies. *)
From Verif Require Import Base Lemmas Hash HashProofs Wire Rec Qry Out In Api RecInv RecSafe RecOps RecAddr OutSafe QryInv QryOps CacheOps QryReg QryLoop InSafe InLoop InResp OutSpec DaemonInv SpecDaemon FactsCalls FactsIn FactsOut.

(* ------------------------------------------------------------------ *)
(* mdnsd_sleep *)

Lemma sleep_cases : forall d e d' t, reach d -> step d e OSleep = Ok (d', RTime t) -> exists qs qs', rinv (R d) qs /\ calm d /\ rest d e qs d' t qs' /\ rinv (R d') qs'.
Proof.
  intros d e d' t K E. destruct (reach_dinv d K) as (qs & H & C). destruct (mdnsd_sleep_spec d e qs H) as (d2 & t2 & qs' & E2 & O & H'). cbn [step] in E. rewrite E2 in E. cbn [bind] in E.
  injection E as <- <-. eauto 8.
Qed.

Lemma later_micros : forall a b, micros (DaemonInv.later a b) = remaining a b /\ 0 <= fst (DaemonInv.later a b) /\ 0 <= snd (DaemonInv.later a b) <= 1000000.
Proof.
  intros a b. unfold DaemonInv.later, ret_sleep, remaining, micros. cbn [fst snd]. set (u := tvdiff a b). assert (U : u = (fst b * 1000000 + snd b) - (fst a * 1000000 + snd a)) by (unfold u, tvdiff; lia).
  rewrite <- U. clearbody u. clear U. set (v := if 0 <? u then u else 0). assert (V : v = Z.max 0 u) by (unfold v; destruct (0 <? u) eqn:?; lia). rewrite <- V. assert (V0 : 0 <= v) by lia. clearbody v.
  destruct (v <=? 1000000) eqn:L; cbn [fst snd]; [lia|]. pose proof (Z.div_mod (v - 1) 1000000 ltac:(lia)). pose proof (Z.mod_pos_bound (v - 1) 1000000 ltac:(lia)). lia.
Qed.

Lemma sleep_valid : forall d e d' t, reach d -> step d e OSleep = Ok (d', RTime t) -> 0 <= fst t /\ 0 <= snd t <= 1000000.
Proof.
  intros d e d' t K E. destruct (sleep_cases d e d' t K E) as (qs & qs' & H & C & O & _).
  destruct O as [|?|?|?|?|?|s' x sec ? ? ? ? Es]; cbn [fst snd]; try lia.
  1-3: apply later_micros.
  - destruct (0 <? _) eqn:?; lia.
  - destruct (2 <? x) eqn:?; lia.
Qed.

Lemma no_waits : forall d qs k, rinv (R d) qs -> ((forall r, ~ waits d k r) <-> qs k = []).
Proof.
  intros d qs k H. split; intros K.
  - destruct (qs k) as [|x l] eqn:E; [reflexivity|]. destruct (K x). apply (waits_iff d qs k x H). rewrite E. left. reflexivity.
  - intros r W. apply (waits_iff d qs k r H) in W. rewrite K in W. exact W.
Qed.
Lemma some_waits : forall d qs k, rinv (R d) qs -> ((exists r, waits d k r) <-> qs k <> []).
Proof.
  intros d qs k H. split.
  - intros (r & W) E. apply (waits_iff d qs k r H) in W. rewrite E in W. exact W.
  - intros K. destruct (qs k) as [|x l] eqn:E; [congruence|]. exists x. apply (waits_iff d qs k x H). rewrite E. left. reflexivity.
Qed.

Lemma sleep_exact : forall d e d' t, reach d -> step d e OSleep = Ok (d', RTime t) ->
  (uans (R d) <> [] \/ (exists r, waits d Now r) -> t = (0, 0)) /\
  (uans (R d) = [] -> (forall r, ~ waits d Now r) ->
    ((exists r, waits d Pause r) -> micros t = remaining (e_now e) (t_pause (R d))) /\
    ((forall r, ~ waits d Pause r) ->
      ((exists r, waits d Probing r) -> micros t = remaining (e_now e) (t_probe (R d))) /\
      ((forall r, ~ waits d Probing r) -> (exists r, waits d Publish r) -> micros t = remaining (e_now e) (t_publish (R d))))).
Proof.
  intros d e d' t K E. destruct (sleep_cases d e d' t K E) as (qs & qs' & H & C & O & _).
  rewrite (some_waits d qs Now H), (some_waits d qs Pause H), (some_waits d qs Probing H), (some_waits d qs Publish H), (no_waits d qs Now H), (no_waits d qs Pause H), (no_waits d qs Probing H).
  destruct O as [U|U N P|U N P B|U N P B A|U Z ?|U Z ?|s' x sec U Z].
  - split; [auto|]. intros U1 N1. destruct U; contradiction.
  - split; [intros [?|?]; contradiction|]. intros _ _. split; [intros _; apply later_micros|]. intros P1. contradiction.
  - split; [intros [?|?]; contradiction|]. intros _ _. split; [intros ?; contradiction|]. intros _. split; [intros _; apply later_micros|]. intros P1. contradiction.
  - split; [intros [?|?]; contradiction|]. intros _ _. split; [intros ?; contradiction|]. intros _. split; [intros ?; contradiction|]. intros _ _. apply later_micros.
  - rewrite !Z. split; [intros [?|?]; contradiction|]. intros _ _. split; [intros ?; contradiction|]. intros _. split; intros; contradiction.
  - rewrite !Z. split; [intros [?|?]; contradiction|]. intros _ _. split; [intros ?; contradiction|]. intros _. split; intros; contradiction.
  - rewrite !Z. split; [intros [?|?]; contradiction|]. intros _ _. split; [intros ?; contradiction|]. intros _. split; intros; contradiction.
Qed.

(* ------------------------------------------------------------------ *)
(* Queries that are due are not overslept *)

Definition on_time (d : daemon) : Prop :=
  0 < fst (now d) /\ forall q x, qh (Q d) q = Some x -> q_next x <> 0 -> 0 < checkq (Q d) /\ (checkq (Q d) <= q_next x \/ checkq (Q d) <= fst (now d)).

Lemma sooner_best : forall l b, 0 <= b -> Forall (fun n => 0 < n) l ->
  0 <= fold_left sooner l b /\ (forall n, In n l -> 0 < fold_left sooner l b <= n) /\ (0 < b -> 0 < fold_left sooner l b <= b).
Proof.
  induction l as [|n l IH]; intros b B F; cbn [fold_left].
  - split; [exact B|]. split; [intros n []|lia].
  - apply Forall_cons_iff in F as [N F]. assert (S1 : 0 < sooner b n /\ sooner b n <= n /\ (0 < b -> sooner b n <= b)) by (unfold sooner; destruct ((b =? 0) || (n <? b)) eqn:?; lia).
    destruct (IH (sooner b n) ltac:(lia) F) as (I1 & I2 & I3). split; [exact I1|]. split; [|lia]. intros m [->|I]; [lia|apply I2; exact I].
Qed.

Lemma queries_at_in : forall s l q x, In q l -> qh s q = Some x -> In x (queries_at s l).
Proof. intros s l q x I E. unfold queries_at. apply in_flat_map. exists q. split; [exact I|]. rewrite E. left. reflexivity. Qed.
Lemma queries_at_back : forall s l x, In x (queries_at s l) -> exists q, In q l /\ qh s q = Some x.
Proof. intros s l x I. unfold queries_at in I. apply in_flat_map in I as (q & I & K). destruct (qh s q) as [y|] eqn:E; [|destruct K]. destruct K as [->|[]]. eauto. Qed.

Lemma queries_out_time : forall d t q' m ret, calm d -> on_time d -> fst (now d) <= t -> queries_out d t q' m ret ->
  forall q x, qh q' q = Some x -> q_next x <> 0 -> 0 < checkq q' /\ (checkq q' <= q_next x \/ checkq q' <= t).
Proof.
  intros d t q' m ret (C1 & C2 & C3 & C4) (T0 & J) M O q x E N. unfold queries_out in O. destruct (negb (checkq (Q d) =? 0) && (checkq (Q d) <=? t)).
  - destruct O as (O1 & _ & _ & O4). rewrite O4. rewrite O1 in E. destruct (qh (Q d) q) as [y|] eqn:Ey; [|discriminate]. injection E as <-.
    set (qa := queries_at (Q d) (qlist (Q d))). assert (Iy : In y qa) by (eapply queries_at_in; [apply (qi_live _ C1); rewrite Ey; discriminate|exact Ey]).
    assert (Num : forall z, In z qa -> 0 <= q_tries z <= 3 /\ 0 <= q_next z) by (intros z I; apply queries_at_back in I as (p & _ & Ez); exact (C2 p z Ez)).
    assert (F2 : Forall (fun n => 0 < n) (map q_next (filter (fun z => negb (QryLoop.asks t z) && (0 <? q_next z)) qa))).
    { apply Forall_forall. intros n I. apply in_map_iff in I as (z & <- & I). apply filter_In in I as [_ I]. lia. }
    assert (F1 : Forall (fun n => 0 < n) (map (fun z => t + (q_tries z + 1)) (filter (QryLoop.asks t) qa))).
    { apply Forall_forall. intros n I. apply in_map_iff in I as (z & <- & I). apply filter_In in I as [I _]. pose proof (Num z I). lia. }
    destruct (sooner_best _ 0 ltac:(lia) F2) as (A1 & A2 & _). destruct (sooner_best _ _ A1 F1) as (B1 & B2 & B3).
    pose proof (Num y Iy) as [Ny Ny'].
    destruct (QryLoop.asks t y) eqn:As.
    + assert (K : In (t + (q_tries y + 1)) (map (fun z => t + (q_tries z + 1)) (filter (QryLoop.asks t) qa))) by (apply in_map_iff; exists y; split; [reflexivity|apply filter_In; auto]).
      apply B2 in K. unfold after_turn. rewrite As. cbn [q_next set_qnext]. lia.
    + assert (P : 0 < q_next y).
      { unfold after_turn in N. rewrite As in N. destruct (rests t y) eqn:Rs; [unfold rests in Rs; lia|]. lia. }
      assert (K : In (q_next y) (map q_next (filter (fun z => negb (QryLoop.asks t z) && (0 <? q_next z)) qa))).
      { apply in_map_iff. exists y. split; [reflexivity|]. apply filter_In. split; [exact Iy|]. rewrite As. cbn [negb andb]. lia. }
      apply A2 in K. assert (L : 0 < fold_left sooner (map q_next (filter (fun z => negb (QryLoop.asks t z) && (0 <? q_next z)) qa)) 0) by lia. apply B3 in L.
      unfold after_turn. rewrite As. destruct (rests t y) eqn:Rs; [unfold rests in Rs; lia|]. lia.
  - destruct O as (_ & _ & Eh & Ec). rewrite Ec. rewrite Eh in E. destruct (J q x E N). lia.
Qed.

Lemma step_on_time : forall d e o d' x, reach d -> legal d e o -> step d e o = Ok (d', x) -> fst (now d) <= fst (e_now e) -> on_time d -> on_time d'.
Proof.
  intros d e o d' x K L E M T. pose proof (reach_dinv d K) as (qs & H & C). pose proof T as [T0 J]. destruct (records_only o) eqn:RO.
  { destruct (records_only_Q d e o d' x RO E) as [Eq En]. unfold on_time. rewrite Eq, En. exact T. }
  destruct o; try discriminate.
  - pose proof C as (C1 & C2 & C3 & C4). destruct (mdnsd_query_spec (Q d) (fst (now d)) host type answer C1) as (q' & o & E' & Hq & Qf & Ef & F & Rest). cbn [step] in E. rewrite E' in E. cbn [bind] in E. injection E as <- <-.
    split; [exact T0|]. cbn [with_Q Q now]. intros q y Ey N. unfold query_effect in Ef. destruct o as [p|], answer as [cb|].
    + destruct Ef as (z & Ez & Ez' & Eo & Ec). destruct (Nat.eq_dec q p) as [->|D].
      * rewrite Ez' in Ey. injection Ey as <-. cbn [set_qcb q_next] in N |- *. destruct (J p z Ez N). replace (checkq q') with (checkq (Q d)) by (symmetry; apply Ec). auto.
      * rewrite (Eo q D) in Ey. destruct (J q y Ey N). replace (checkq q') with (checkq (Q d)) by (symmetry; apply Ec). auto.
    + destruct Ef as (Ez & Eo & Ec). destruct (Nat.eq_dec q p) as [->|D]; [congruence|]. rewrite (Eo q D) in Ey. destruct (J q y Ey N). replace (checkq q') with (checkq (Q d)) by (symmetry; apply Ec). auto.
    + destruct Ef as (Ez & Eo & Ec). replace (checkq q') with (fst (now d)) by (symmetry; apply Ec). split; [lia|right; lia].
    + subst q'. exact (J q y Ey N).
  - destruct L as [N W]. destruct (mdnsd_in_spec d e m from qs H C N W) as (d2 & n & qs' & E' & A & H' & C' & _). cbn [step] in E. rewrite E' in E. cbn [bind] in E. injection E as <- <-.
    destruct A as [?|i tm|i0 tm0 d2 qs' ? ? ? ? EA|i0 tm0 d2 qs' ? ? ? ? EA].
    + exact T.
    + split; [cbn; lia|]. intros q y Ey Nz. cbn [into with_now Q now] in *. destruct (J q y Ey Nz). lia.
    + set (d1 := into (with_now d (e_now e)) (R d) i0 tm0 (received d)) in *.
      destruct (questions_sound (m_qd m) d1 e from false (m_id m) (m_an m) qs H ltac:(discriminate)) as (s' & i' & tm' & L' & b & qs2 & Cf & E2 & _). rewrite EA in E2. injection E2 as ->.
      split; [cbn; lia|]. intros q y Ey Nz. cbn [answered d1 into with_now Q now] in *. destruct (J q y Ey Nz). lia.
    + set (d1 := into (with_now d (e_now e)) (R d) i0 tm0 (received d)) in *. destruct C as (C1 & C2 & C3 & C4).
      destruct (responses_sound (m_an m) d1 e from false qs H C1 N W ltac:(discriminate)) as (s' & q' & i' & tm' & L' & qs2 & U & Cf & E2 & _ & _ & _ & Sh & _). rewrite EA in E2. injection E2 as ->.
      split; [cbn; lia|]. intros q y Ey Nz. cbn [heard d1 into with_now Q now] in *. rewrite (sh_checkq _ _ _ _ Sh). destruct (J q y (sh_qh _ _ _ _ Sh q y Ey) Nz). lia.
  - cbn [step] in E. destruct (mdnsd_out d e) as [[[d2 m] n]| | |] eqn:E'; try discriminate. cbn [bind] in E. injection E as <- <-.
    assert (E2 : step d e OOut = Ok (d2, RMsg m n)) by (cbn [step]; rewrite E'; reflexivity).
    destruct (out_cases d e d2 m n K L E2) as (qs1 & qs' & H1 & C1 & O & _).
    destruct O as [u us X added Eu EX G|N restN P restP s' Eu Sd E3 E4 Dp A Ua Cf Bl|N restN P restP A restA s' added all seen Eu Sd D Eall Nall Eseen Af Ua Tp Tb Cf Tq G|N restN A restA s' l Eu Sd D E3 E4 El La Af Ua Cf Tp Tb Tq|N restN A restA s' q1 q' l m ret U V Eu Sd D E3 E4 El La Af Ua Cf Tp Tb Tq QO Ql Sh Zq Uq CK TO G].
    1-4: split; [cbn; lia|]; intros q y Ey Nz; cbn [with_R with_now Q now] in *; destruct (J q y Ey Nz); lia.
    split; [cbn; lia|]. intros q y Ey Nz. cbn [with_expireall with_Q with_R with_now Q now] in *. rewrite (sh_checkq _ _ _ _ Sh). apply (sh_qh _ _ _ _ Sh) in Ey.
    exact (queries_out_time d (fst (e_now e)) q1 m ret C T M QO q y Ey Nz).
  - cbn [step] in E. destruct (mdnsd_sleep d e) as [[d2 t]| | |] eqn:E'; try discriminate. cbn [bind] in E. injection E as <- <-.
    assert (Eq : Q d2 = Q d) by (eapply sleep_Q; exact E'). assert (E2 : step d e OSleep = Ok (d2, RTime t)) by (cbn [step]; rewrite E'; reflexivity).
    destruct (sleep_cases d e d2 t K E2) as (qs1 & qs' & _ & _ & O & _). unfold on_time. rewrite Eq.
    assert (En : now d2 = now d \/ now d2 = e_now e) by (destruct O; cbn [with_R with_now now]; auto). destruct En as [-> | ->]; [exact T|]. split; [lia|]. intros q y Ey Nz. destruct (J q y Ey Nz). lia.
Qed.

Lemma history_on_time : forall t cls frm l d, 0 < fst t -> history (mdnsd_new t cls frm) l d -> forward l -> on_time d.
Proof.
  intros t cls frm l d T Hh. induction Hh as [|l d e o x d' Hh IH L E]; intros F.
  - split; [exact T|]. intros q x Ex. discriminate.
  - eapply step_on_time; [exact (history_reach _ _ _ (reach_new t cls frm ltac:(lia)) Hh)|exact L|exact E| |apply IH; intros ev I; apply F; apply in_or_app; left; exact I].
    apply (F (mkevent d e o x d')). apply in_or_app. right. left. reflexivity.
Qed.

Lemma sleep_query : forall t0 cls frm l d e d' t x, 0 < fst t0 -> history (mdnsd_new t0 cls frm) l d -> forward l -> fst (now d) <= fst (e_now e) ->
  step d e OSleep = Ok (d', RTime t) -> uans (R d) = [] -> (forall r, idle d r) -> registered d x -> q_next x <> 0 ->
  fst t <= Z.max 0 (q_next x - fst (e_now e)) /\ snd t = 0.
Proof.
  intros t0 cls frm l d e d' t x T Hh F M E U I (q & _ & Ex) N. destruct (history_on_time _ _ _ _ _ T Hh F) as [T0 J]. destruct (J q x Ex N) as [J1 J2].
  assert (K : reach d) by exact (history_reach _ _ _ (reach_new t0 cls frm ltac:(lia)) Hh). destruct (sleep_cases d e d' t K E) as (qs & qs' & H & C & O & _).
  assert (Z : forall k, qs k = []) by (intros k; apply (no_waits d qs k H); intros r; apply I).
  destruct O as [V|V N1 P|V N1 P B|V N1 P B A|V Z1 Cq|V Z1 Cq|s' y sec V Z1 Cq]; cbn [fst snd].
  - lia.
  - rewrite Z in P. congruence.
  - rewrite Z in B. congruence.
  - rewrite Z in A. congruence.
  - destruct (0 <? _) eqn:?; lia.
  - lia.
  - lia.
Qed.

(* ------------------------------------------------------------------ *)
(* Announcing again *)

Lemma sleep_republish : forall d e d' t, reach d -> step d e OSleep = Ok (d', RTime t) -> uans (R d) = [] -> (forall r, idle d r) -> checkq (Q d) = 0 -> fst (e_now e) <= expireall d ->
  forall b r X, In b (pub (R d)) -> hd_error b = Some r -> record d r X ->
  (expires X <= fst (e_now e) + 2 -> waits d' Pause r /\ t = (0, 0)) /\ fst t <= Z.max 0 (expires X - 2 - fst (e_now e)) /\ snd t = 0.
Proof.
  intros d e d' t K E U I Ck Ex b r X Ib Hb EX. destruct (sleep_cases d e d' t K E) as (qs & qs' & H & C & O & H').
  assert (Z : forall k, qs k = []) by (intros k; apply (no_waits d qs k H); intros y; apply I).
  destruct O as [V|V N1 P|V N1 P B|V N1 P B A|V Z1 Cq|V Z1 Cq|s' y sec V Z1 Cq Ge Es Tp Hf Pb Fr Ua Tb Tq Cf B1 B2 B3].
  - rewrite Z in V. destruct V; congruence.
  - rewrite Z in P. congruence.
  - rewrite Z in B. congruence.
  - rewrite Z in A. congruence.
  - congruence.
  - lia.
  - assert (Ir : In r (heads (pub (R d)))).
    { unfold heads. apply in_flat_map. exists b. split; [exact Ib|]. destruct b as [|r' b]; [discriminate|]. injection Hb as ->. left. reflexivity. }
    pose proof (B2 r X Ir EX) as B. unfold soon in B. unfold expires. cbn [fst snd].
    split; [|split; [subst sec; destruct (2 <? y) eqn:?; lia|reflexivity]]. intros Le. split.
    + apply (waits_iff _ _ Pause r H'). rewrite on_same. apply in_rev. rewrite rev_involutive. apply filter_In. split; [exact Ir|]. unfold holds. change (hp (R d) r = Some X) in EX. rewrite EX. unfold soon. lia.
    + subst sec. replace (2 <? y) with false by lia. reflexivity.
Qed.

(* ------------------------------------------------------------------ *)
(* The delay of shared answers *)

Definition pause_at (t : tv) : tv := (fst t, snd t + Z.rem (snd t) 100 + 20).
Definition delays (t : tv) (s : recs) (qs : queue -> list nat) (s' : recs) (qs' : queue -> list nat) : Prop :=
  t_pause s' = pause_at t \/ (t_pause s' = t_pause s /\ incl (qs' Pause) (qs Pause)).
Lemma delays_trans : forall t s qs s1 qs1 s2 qs2, delays t s qs s1 qs1 -> delays t s1 qs1 s2 qs2 -> delays t s qs s2 qs2.
Proof. intros t s qs s1 qs1 s2 qs2 A [B|[B1 B2]]; [left; exact B|]. destruct A as [A|[A1 A2]]; [left; congruence|right]. split; [congruence|eapply incl_tran; eassumption]. Qed.
Lemma delays_refl : forall t s qs, delays t s qs s qs.
Proof. intros. right. split; [reflexivity|apply incl_refl]. Qed.
Lemma r_send_delays : forall s qs t r s', rinv s qs -> r_send s t r = Ok s' -> exists qs', rinv s' qs' /\ delays t s qs s' qs'.
Proof.
  intros s qs t r s' H E. destruct (hp s r) as [X|] eqn:EX; [|unfold r_send in E; unfold hget in E; rewrite EX in E; discriminate].
  destruct (r_send_full s qs t r X H EX) as (s1 & E1 & H1 & F1). rewrite E1 in E. injection E as <-. exists (sent_queues X r qs). split; [exact H1|].
  destruct F1 as [(_ & _ & _ & F & _) _]. unfold delays. rewrite F. unfold send_time, sent_queues, send_queue. destruct (tries X <? 4); [right; split; [reflexivity|apply incl_refl]|].
  destruct (unique X =? 0); [left; reflexivity|]. right. split; [reflexivity|]. unfold enq. cbn [queue_eqb]. intros x; apply remove1_in.
Qed.

Lemma r_conflict_delays : forall s qs t r X s', rinv s qs -> hp s r = Some X -> probes X = true -> r_conflict s t r = Ok s' -> exists qs', rinv s' qs' /\ delays t s qs s' qs'.
Proof.
  intros s qs t r X s' H EX P E. destruct (conflict_probing s qs t r X H EX P) as (s1 & E1 & H1 & _). rewrite E1 in E. injection E as <-. eexists. split; [exact H1|]. right.
  split; [|rewrite on_other by discriminate; apply incl_refl]. clear H1. unfold r_conflict in E1. rewrite (hget_some _ _ _ EX) in E1. cbn [bind] in E1. destruct (conflict X) as [cb|]; [|discriminate].
  unfold mdnsd_done in E1. rewrite (hget_some (hp (add_conflict s _)) r X EX) in E1. cbn [bind] in E1. rewrite P in E1. apply bind_ok in E1 as (s2 & E2 & E1).
  assert (T2 : t_pause s2 = t_pause s). { destruct (ptr_eqb _ _); [injection E2 as <-; reflexivity|]. apply bind_ok in E2 as (h & _ & E2). injection E2 as <-. reflexivity. }
  unfold r_done in E1. apply bind_ok in E1 as (Y & _ & E1). injection E1 as <-. exact T2.
Qed.

Lemma disco_delays : forall fuel s qs t r n ty s', rinv s qs -> disco_loop fuel s t r n ty = Ok s' -> exists qs', rinv s' qs' /\ delays t s qs s' qs'.
Proof.
  induction fuel as [|fuel IH]; intros s qs t r n ty s' H E; [discriminate|]. cbn [disco_loop] in E. destruct r as [x|]; [|injection E as <-; exists qs; split; [exact H|apply delays_refl]].
  apply bind_ok in E as (X & _ & E). apply bind_ok in E as (s1 & E1 & E). apply bind_ok in E as (nx & _ & E).
  assert (S1 : exists qs1, rinv s1 qs1 /\ delays t s qs s1 qs1). { destruct (bytes_eqb _ _); [eapply r_send_delays; eassumption|injection E1 as <-; exists qs; split; [exact H|apply delays_refl]]. }
  destruct S1 as (qs1 & H1 & D1). destruct (IH s1 qs1 t nx n ty s' H1 E) as (qs' & H' & D'). exists qs'. split; [exact H'|eapply delays_trans; eassumption].
Qed.

Lemma refresh_same : forall d e f, R (refresh d e f) = R d /\ now (refresh d e f) = now d.
Proof. intros d e f. unfold refresh. destruct (_ && _); [auto|]. destruct (e_ifs e); auto. Qed.
Lemma is_local_same : forall d e from d' l, is_local d e from = (d', l) -> R d' = R d /\ now d' = now d.
Proof.
  intros d e from d' l E. unfold is_local in E. destruct (family from =? AF_INET6); (destruct (bytes_eqb _ _); [injection E as <- _; auto|]); cbv zeta in E; injection E as <- _; apply refresh_same.
Qed.
Lemma recheck_same : forall d e from did d' l, recheck d e from did = (d', l) -> R d' = R d /\ now d' = now d.
Proof.
  intros d e from did d' l E. unfold recheck in E. apply is_local_same in E as [E1 E2]. destruct did; [auto|]. destruct (refresh_same d e true). split; congruence.
Qed.

Lemma probe_check_delays : forall an d e from did q r X qs d' did' c, rinv (R d) qs -> hp (R d) r = Some X -> probes X = true -> probe_check d e from did q r an = Ok (d', did', c) ->
  now d' = now d /\ exists qs', rinv (R d') qs' /\ delays (now d) (R d) qs (R d') qs'.
Proof.
  induction an as [|a an IH]; intros d e from did q r X qs d' did' c H EX P E; cbn [probe_check] in E.
  - injection E as <- _ _. split; [reflexivity|]. exists qs. split; [exact H|apply delays_refl].
  - destruct (same_q q a); cbn [negb] in E; [|eapply IH; eassumption]. apply bind_ok in E as (Y & _ & E). destruct (a_match a (rr Y)); [eapply IH; eassumption|].
    destruct (recheck d e from did) as [d1 l] eqn:Er. destruct (recheck_same _ _ _ _ _ _ Er) as [R1 N1]. destruct l.
    + rewrite <- R1, <- N1. eapply IH; [rewrite R1; exact H|rewrite R1; exact EX|exact P|exact E].
    + apply bind_ok in E as (s & Es & E). injection E as <- _ _. cbn [with_R now R]. split; [exact N1|]. rewrite R1, N1 in Es. eapply r_conflict_delays; eassumption.
Qed.

Lemma known_check_same : forall an d q X, R (fst (known_check d q X an)) = R d /\ now (fst (known_check d q X an)) = now d.
Proof.
  induction an as [|a an IH]; intros d q X; cbn [known_check]; [auto|]. destruct (same_q q a); cbn [negb]; [|apply IH]. cbv zeta. set (d1 := if has_recv d then add_received d a else d).
  assert (S1 : R d1 = R d /\ now d1 = now d) by (unfold d1; destruct (has_recv d); auto). destruct (a_match a (rr X)); [exact S1|]. destruct (IH d1 q X). split; [transitivity (R d1)|transitivity (now d1)]; tauto.
Qed.

Lemma answer_delays : forall fuel d e from did q an r conf qs d' did' c, rinv (R d) qs -> answer_loop fuel d e from did q an r conf = Ok (d', did', c) ->
  now d' = now d /\ exists qs', rinv (R d') qs' /\ delays (now d) (R d) qs (R d') qs'.
Proof.
  induction fuel as [|fuel IH]; intros d e from did q an r conf qs d' did' c H E; [discriminate|]. cbn [answer_loop] in E. destruct r as [r|]; [|injection E as <- _ _; split; [reflexivity|]; exists qs; split; [exact H|apply delays_refl]].
  apply bind_ok in E as (n & _ & E). apply bind_ok in E as (X & EX & E). unfold hget in EX. destruct (hp (R d) r) as [X'|] eqn:EX'; [|discriminate]. injection EX as ->.
  assert (Next : forall d1 qs1 did1 c1, now d1 = now d -> rinv (R d1) qs1 -> delays (now d) (R d) qs (R d1) qs1 -> answer_loop fuel d1 e from did1 q an n c1 = Ok (d', did', c) ->
    now d' = now d /\ exists qs', rinv (R d') qs' /\ delays (now d) (R d) qs (R d') qs').
  { intros d1 qs1 did1 c1 N1 H1 D1 E1. destruct (IH d1 e from did1 q an n c1 qs1 d' did' c H1 E1) as (N2 & qs' & H' & D'). split; [congruence|]. exists qs'. split; [exact H'|]. rewrite N1 in D'. eapply delays_trans; eassumption. }
  destruct (probes X && negb (modified X)) eqn:W.
  - apply bind_ok in E as ([[d1 did1] c1] & Ep & E). apply andb_true_iff in W as [W _]. destruct (probe_check_delays an d e from did q r X qs d1 did1 c1 H EX' W Ep) as (N1 & qs1 & H1 & D1). eapply Next; eassumption.
  - pose proof (known_check_same an d q X) as [K1 K2]. destruct (known_check d q X an) as [d1 kn]. cbn [fst] in K1, K2. destruct kn.
    + eapply (Next d1 qs); [exact K2|rewrite K1; exact H|rewrite K1; apply delays_refl|exact E].
    + apply bind_ok in E as (s & Es & E). rewrite K1, K2 in Es. destruct (r_send_delays _ _ _ _ _ H Es) as (qs1 & H1 & D1). eapply (Next (with_R d1 s) qs1); [exact K2|exact H1|exact D1|exact E].
Qed.

Lemma questions_delays : forall qd d e from did id an qs d', rinv (R d) qs -> (did = true -> ifs d = view d e) -> questions d e from did id qd an = Ok d' ->
  exists qs', rinv (R d') qs' /\ delays (now d) (R d) qs (R d') qs'.
Proof.
  induction qd as [|q qd IH]; intros d e from did id an qs d' H D E; cbn [questions] in E.
  - injection E as <-. exists qs. split; [exact H|apply delays_refl].
  - destruct (q_class q =? class d) eqn:Ec; cbn [negb] in E; [|eapply IH; eassumption]. rewrite (r_next_first _ _ _ (ri_p _ _ H)) in E. cbn [bind] in E.
    set (l := cands (hp (R d)) (q_name q) (q_type q) (chain_of (R d) (q_name q))) in *. destruct (hd_error l) as [r0|] eqn:Hl; [|eapply IH; eassumption].
    assert (Lf : (length l < qfuel (R d))%nat) by (eapply Nat.le_lt_trans; [apply filter_len|]; eapply rinv_chain_fuel; exact H).
    destruct (bytes_eqb (q_name q) DISCO_NAME).
    + cbv zeta in E. cbn [with_disco R now] in E. apply bind_ok in E as (s & Es & E). destruct (disco_delays _ _ _ _ _ _ _ _ H Es) as (qs1 & H1 & D1).
      destruct (IH (with_R (with_disco d true) s) _ _ _ _ _ qs1 _ H1 D E) as (qs' & H' & D'). exists qs'. split; [exact H'|eapply delays_trans; eassumption].
    + apply bind_ok in E as ([[d1 did1] c1] & Ea & E). destruct (answer_delays _ _ _ _ _ _ _ _ _ _ _ _ _ H Ea) as (N1 & qs1 & H1 & D1).
      rewrite <- Hl in Ea. destruct (answer_loop_spec l (qfuel (R d)) d e from did q an false qs [] (chain_of (R d) (q_name q)) H eq_refl eq_refl Lf D) as (s' & i & tm & L & did' & E' & Ii & Di & _ & A' & _).
      rewrite E' in Ea. injection Ea as Ed <- Ec1. cbv zeta in E.
      set (d2 := if negb c1 && negb (port from =? 5353) then with_R d1 (u_push (R d1) r0 id from) else d1) in *.
      assert (E2 : now d2 = now d /\ t_pause (R d2) = t_pause (R d1) /\ ifs d2 = ifs d1) by (unfold d2; destruct (_ && _); auto). destruct E2 as (N2 & T2 & I2).
      assert (H2 : rinv (R d2) qs1).
      { unfold d2. destruct (negb c1 && negb (port from =? 5353)) eqn:B; [|exact H1]. cbn [with_R R]. unfold u_push. apply rinv_uans; [exact H1|]. cbn [u_r]. rewrite <- Ed. cbn [into R].
        assert (I0 : In r0 l) by (destruct l; [discriminate|injection Hl as ->; left; reflexivity]). apply cands_in in I0 as (_ & X & EX & _).
        destruct (yielding (is_me d e from) q an (hp (R d)) l) as [|y dead]; [|rewrite <- Ec1 in B; discriminate B].
        specialize (A' r0). unfold vanish, upon in A'. cbn [mem existsb] in A'. rewrite EX in A'. destruct (hp s' r0); discriminate. }
      assert (D2 : did' = true -> ifs d2 = view d2 e).
      { intros K. unfold view. rewrite I2, <- Ed. cbn [into ifs]. rewrite (Di K). unfold view. destruct (e_ifs e); reflexivity. }
      destruct (IH _ _ _ _ _ _ qs1 _ H2 D2 E) as (qs' & H' & D'). rewrite N2 in D'. exists qs'. split; [exact H'|]. eapply delays_trans; [exact D1|]. destruct D' as [D'|[D' D'']]; [left; exact D'|right]. split; [congruence|exact D''].
Qed.

Lemma in_delays : forall d e m from d' n, reach d -> legal d e (OIn m from) -> h_qr (m_header m) = 0 -> step d e (OIn m from) = Ok (d', RInt n) ->
  forall r, waits d' Pause r -> ~ waits d Pause r -> t_pause (R d') = pause_at (e_now e).
Proof.
  intros d e m from d' n K [N W] Qr E r W1 W0. destruct (reach_dinv d K) as (qs & H & C).
  cbn [step] in E. destruct (mdnsd_in d e m from) as [[d2 k]| | |] eqn:E'; try discriminate. cbn [bind] in E. injection E as <- _.
  destruct (mdnsd_in_spec d e m from qs H C N W) as (d2' & n' & qs' & E2 & A & H' & _). rewrite E' in E2. injection E2 as <- <-.
  destruct A as [?|i tm|i0 tm0 d2 qs' ? ? ? ? EA|i0 tm0 d2 qs' ? ? ? ? EA]; try contradiction; try congruence.
  set (d1 := into (with_now d (e_now e)) (R d) i0 tm0 (received d)) in *.
  destruct (questions_delays (m_qd m) d1 e from false (m_id m) (m_an m) qs d2 H ltac:(discriminate) EA) as (qs2 & Hq2 & [D|[_ D]]); [exact D|].
  destruct W0. apply (waits_iff d qs Pause r H). apply D. apply (waits_iff d2 qs2 Pause r Hq2). exact W1.
Qed.

Lemma sleep_first : forall d e d' t host r X, reach d -> step d e OSleep = Ok (d', RTime t) -> uans (R d) = [] -> (forall r, idle d r) -> checkq (Q d) = 0 -> fst (e_now e) <= expireall d ->
  hd_error (mdnsd_get_published (R d) host) = Some r -> record d r X ->
  (expires X <= fst (e_now e) + 2 -> waits d' Pause r /\ t = (0, 0)) /\ fst t <= Z.max 0 (expires X - 2 - fst (e_now e)) /\ snd t = 0.
Proof.
  intros d e d' t host r X K E U I Ck Ex Hh EX. eapply (sleep_republish d e d' t K E U I Ck Ex (mdnsd_get_published (R d) host)); [|exact Hh|exact EX].
  unfold mdnsd_get_published, chain_of in *. destruct (nth_in_or_default (rbucket host) (pub (R d)) []) as [J|J]; [exact J|]. rewrite J in Hh. discriminate.
Qed.

Lemma in_delay_range : forall d e m from d' n r, reach d -> legal d e (OIn m from) -> h_qr (m_header m) = 0 -> 0 <= snd (e_now e) -> step d e (OIn m from) = Ok (d', RInt n) ->
  waits d' Pause r -> ~ waits d Pause r -> 20 <= remaining (e_now e) (t_pause (R d')) <= 119.
Proof.
  intros d e m from d' n r K L Qr P E W1 W0. rewrite (in_delays d e m from d' n K L Qr E r W1 W0). unfold remaining, micros, pause_at. cbn [fst snd].
  pose proof (Z.rem_bound_pos (snd (e_now e)) 100 P ltac:(lia)). lia.
Qed.
