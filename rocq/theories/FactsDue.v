(* What is due is sent; known answers; the time of sending. *)
From Verif Require Import Base Lemmas Hash HashProofs Wire Rec Qry Out In Api RecInv RecSafe RecOps RecAddr OutSafe OutPub OutProbe OutExtra QryInv QryOps CacheOps QryLoop OutAll OutSpec Shut InSafe InLoop InResp DaemonInv FactsIn SpecDaemon SpecLife SpecSpace SpecCache FactsCalls FactsEvolve FactsItems FactsOut FactsFrame FactsSize FactsDrain FactsFate FactsLife FactsSpace FactsCache FactsSleep ReentAsk.

(* ------------------------------------------------------------------ *)
(* A probe that is due is sent. *)
Lemma probe_sent : forall d e d' m n r X, reach d -> legal d e OOut -> step d e OOut = Ok (d', RMsg m n) -> is_shutdown d = false -> uans (R d) = [] ->
  (forall x, ~ waits d Now x) -> (forall x, ~ waits d Pause x) -> waits d Probing r -> record d r X -> micros (t_probe (R d)) <= micros (e_now e) ->
  if unique X =? 4 then waits d' Publish r else probes_for r (mkevent d e OOut (RMsg m n) d').
Proof.
  intros d e d' m n r X K Lg E Sd Eu NN NA W EX Tm. destruct (reach_dinv d K) as (qs & H & C). destruct (out_given d e d' m n qs H C Lg E) as (qs' & O & H').
  apply (none_nil d qs Now H) in NN. apply (none_nil d qs Pause H) in NA. apply (waits_iff d qs Probing r H) in W.
  assert (Td : tvdiff (e_now e) (t_probe (R d)) <=? 0 = true) by (apply due_micros; exact Tm).
  assert (Pd : probe_due (R d) qs (e_now e) = qs Probing) by (unfold probe_due; rewrite Td; reflexivity).
  assert (Ad : announce_due (R d) qs (e_now e) = false) by (unfold announce_due; destruct (qs Probing); [destruct W|reflexivity]).
  assert (Ra : unique X =? 4 = true -> In r (ready (hp (R d)) (qs Probing))) by (intros U; apply filter_In; split; [exact W|]; unfold OutSafe.holds; rewrite EX; exact U).
  destruct O as [u us X0 added Eu' EX0 G|N restN P restP s' Eu' Sd' E1 E2 Dp A Ua Cf Bl|N restN P restP A restA s' added all seen Eu' Sd' D Eall Nall Eseen Af Ua Tp Tb Cf Tq G|N restN A restA s' l Eu' Sd' D E1 E2 El La Af Ua Cf Tp Tb Tq|N restN A restA s' q1 q' l m ret T V Eu' Sd' D E1 E2 El La Af Ua Cf Tp Tb Tq QO Ql Sh Zq Uq CK TO G]; try congruence.
  - exfalso. apply Nall. destruct D as [D1 D2 D3 D4 _ _ _ _]. rewrite (D4 Ad) in *. rewrite NN in D1. rewrite NA in D3. destruct N; [|discriminate]. destruct A; [|discriminate]. rewrite Eall. reflexivity.
  - rewrite Pd in El. subst l. destruct (unique X =? 4) eqn:U.
    + apply (waits_iff _ _ Publish r H'). rewrite on_same. apply in_or_app. left. apply in_rev. rewrite rev_involutive. exact (Ra eq_refl).
    + exists (mkomsg (mcast (d_family d)) 0 false (OutProbe.asks (class d) (hp (R d)) (qs Probing) ++ flat_map (at_rec (hp (R d)) (fun X => if probed X then [] else tell_calls (class d) X)) (qs Probing))), (zlen (OutProbe.asked (hp (R d)) (qs Probing))), X.
      cbn [ev_call ev_result ev_before o_qr]. split; [reflexivity|]. split; [reflexivity|]. split; [reflexivity|]. split; [exact EX|]. unfold says. cbn [o_calls]. rewrite items_probe.
      split; apply in_or_app; [left|right]; apply in_flat_map; exists r; (split; [exact W|]); unfold at_rec; rewrite EX; unfold probed; rewrite U; left; reflexivity.
  - rewrite Pd in El. subst l. destruct (unique X =? 4) eqn:U.
    + apply (waits_iff _ _ Publish r H'). rewrite on_same. apply in_or_app. left. apply in_rev. rewrite rev_involutive. exact (Ra eq_refl).
    + exfalso. assert (I : In r (OutProbe.asked (hp (R d)) (qs Probing))) by (apply OutProbe.asked_in; split; [exact W|]; exists X; split; [exact EX|exact U]). rewrite La in I. exact I.
Qed.

(* mdnsd_unique makes the first probe due at once. *)
Ltac done_same E := injection E as <-; reflexivity.
Lemma remove_list_ua : forall s q r s', r_remove_list s q r = Ok s' -> uans s' = uans s.
Proof. intros s q r s' E. unfold r_remove_list in E. destruct (ptr_eqb _ _); apply bind_ok in E as (X & _ & E); [destruct q|]; done_same E. Qed.
Lemma remove_unless_ua : forall s k q r s', remove_unless s k q r = Ok s' -> uans s' = uans s.
Proof.
  intros s k q r s' E. unfold remove_unless in E. destruct (head s q); [|done_same E]. destruct k as [k|]; [|eapply remove_list_ua; exact E]. destruct (queue_eqb q k); [done_same E|eapply remove_list_ua; exact E].
Qed.
Lemma remove_lists_ua : forall s r k s', r_remove_lists s r k = Ok s' -> uans s' = uans s.
Proof.
  intros s r k s' E. unfold r_remove_lists in E. apply bind_ok in E as (s1 & E1 & E). apply bind_ok in E as (s2 & E2 & E). apply bind_ok in E as (s3 & E3 & E).
  apply remove_unless_ua in E1, E2, E3, E. congruence.
Qed.
Lemma push_ua : forall s q r s', r_push s q r = Ok s' -> uans s' = uans s.
Proof. intros s q r s' E. unfold r_push in E. apply bind_ok in E as (b & _ & E). destruct b; [done_same E|]. apply bind_ok in E as (X & _ & E). destruct q; done_same E. Qed.

Lemma unique_now : forall s t h ty ttl cb s' r, mdnsd_unique s t h ty ttl cb = Ok (s', r) -> t_probe s' = t.
Proof.
  intros s t h ty ttl cb s' r E. unfold mdnsd_unique in E. destruct (mdnsd_shared s h ty ttl) as [s1 r1]. apply bind_ok in E as (X & _ & E). cbv zeta in E. apply bind_ok in E as (s2 & _ & E). apply bind_ok in E as (s3 & _ & E). injection E as <- _. reflexivity.
Qed.
Lemma unique_probed : forall d e h ty ttl cb d1 r e' d2 m n, reach d -> legal d e (OUnique h ty ttl cb) -> step d e (OUnique h ty ttl cb) = Ok (d1, RRec r) ->
  legal d1 e' OOut -> step d1 e' OOut = Ok (d2, RMsg m n) -> micros (now d) <= micros (e_now e') -> is_shutdown d = false -> uans (R d) = [] ->
  (forall x, ~ waits d Now x) -> (forall x, ~ waits d Pause x) -> probes_for r (mkevent d1 e' OOut (RMsg m n) d2).
Proof.
  intros d e h ty ttl cb d1 r e' d2 m n K L E L' E' Tm Sd Eu NN NA. destruct (unique_made d e h ty ttl cb d1 _ K L E) as (Er & Y & EY & UY). injection Er as ->.
  pose proof (reach_step _ _ _ _ _ K L E) as K1. pose proof E as E0. cbn [step] in E0. apply on_new_ok in E0 as (s & r0 & E1 & Ed & _).
  destruct (reach_dinv d K) as (qs & H & C). destruct L as [L0 L1].
  destruct (mdnsd_unique_inv (R d) qs (now d) h ty ttl cb H L1) as (s' & E2 & H2 & _). rewrite E1 in E2. injection E2 as <- ->.
  assert (H1 : rinv (R d1) (on Probing (fresh (R d) :: qs Probing) qs)) by (rewrite Ed; exact H2).
  pose proof (probe_sent d1 e' d2 m n (fresh (R d)) Y K1 L' E') as G. rewrite UY in G. apply G.
  - rewrite Ed. exact Sd.
  - assert (U : uans s = uans (R d)); [|rewrite Ed; cbn [with_R R]; rewrite U; exact Eu]. clear - E1. unfold mdnsd_unique in E1. destruct (mdnsd_shared (R d) h ty ttl) as [s1 r1] eqn:Es. apply bind_ok in E1 as (X & _ & E1). cbv zeta in E1.
    assert (U1 : uans s1 = uans (R d)) by (unfold mdnsd_shared in Es; injection Es as <- _; reflexivity). apply bind_ok in E1 as (s2 & E2 & E1). apply bind_ok in E1 as (s3 & E3 & E1). injection E1 as <- _. cbn [set_tprobe uans].
    apply remove_lists_ua in E2. apply push_ua in E3. cbn [set_hp uans] in E2. congruence.
  - intros x W. apply (waits_iff d1 _ Now x H1) in W. rewrite on_other in W by discriminate. apply (NN x). apply (waits_iff d qs Now x H). exact W.
  - intros x W. apply (waits_iff d1 _ Pause x H1) in W. rewrite on_other in W by discriminate. apply (NA x). apply (waits_iff d qs Pause x H). exact W.
  - apply (waits_iff d1 _ Probing _ H1). rewrite on_same. left. reflexivity.
  - exact EY.
  - rewrite Ed. cbn [with_R R]. rewrite (unique_now _ _ _ _ _ _ _ _ E1). exact Tm.
Qed.

(* ------------------------------------------------------------------ *)
(* The clock of the daemon is that of some call. *)
Lemma step_now : forall d e o d' x, reach d -> legal d e o -> step d e o = Ok (d', x) -> now d' = now d \/ now d' = e_now e.
Proof.
  intros d e o d' x K L E. destruct (reach_dinv d K) as (qs & H & C).
  assert (W : {o = OOut} + {o <> OOut}) by (destruct o; auto; right; discriminate). destruct W as [->|No].
  { destruct (out_result d e d' x E) as (m & n & ->). destruct (out_given d e d' m n qs H C L E) as (qs' & O & _). right. destruct O; reflexivity. }
  assert (W : (forall m from, o <> OIn m from) \/ exists m from, o = OIn m from) by (destruct o; eauto; left; discriminate). destruct W as [Ni|(m & from & ->)].
  { exact (proj2 (other_moves d e o d' x qs H Ni No E)). }
  destruct L as [N W]. destruct (mdnsd_in_spec d e m from qs H C N W) as (d2 & n & qs' & E' & A & H' & C' & _). cbn [step] in E. rewrite E' in E. cbn [bind] in E. injection E as <- <-.
  destruct A as [?|i tm|i0 tm0 d2 qs' ? ? ? ? EA|i0 tm0 d2 qs' ? ? ? ? EA].
  - auto.
  - right. reflexivity.
  - set (d1 := into (with_now d (e_now e)) (R d) i0 tm0 (received d)) in *.
    destruct (questions_sound (m_qd m) d1 e from false (m_id m) (m_an m) qs H ltac:(discriminate)) as (s' & i' & tm' & L' & b & qs2 & Cf & E2 & _). rewrite EA in E2. injection E2 as ->. right. reflexivity.
  - set (d1 := into (with_now d (e_now e)) (R d) i0 tm0 (received d)) in *. destruct C as (C1 & C2 & C3 & C4).
    destruct (responses_sound (m_an m) d1 e from false qs H C1 N W ltac:(discriminate)) as (s' & q' & i' & tm' & L' & qs2 & U & Cf & E2 & _). rewrite EA in E2. injection E2 as ->. right. reflexivity.
Qed.

Lemma out_probe_sends : forall d e d' m n, reach d -> legal d e OOut -> step d e OOut = Ok (d', RMsg m n) ->
  t_probe (R d') = t_probe (R d) \/ sends_probe (mkevent d e OOut (RMsg m n) d').
Proof.
  intros d e d' m n K L E. destruct (reach_dinv d K) as (qs & H & C). destruct (out_given d e d' m n qs H C L E) as (qs' & O & H').
  destruct O as [u us X added Eu EX G|N restN P restP s' Eu Sd E1 E2 Dp A Ua Cf Bl|N restN P restP A restA s' added all seen Eu Sd D Eall Nall Eseen Af Ua Tp Tb Cf Tq G|N restN A restA s' l Eu Sd D E1 E2 El La Af Ua Cf Tp Tb Tq|N restN A restA s' q1 q' l m ret T V Eu Sd D E1 E2 El La Af Ua Cf Tp Tb Tq QO Ql Sh Zq Uq CK TO G].
  - left. reflexivity.
  - left. cbn [step] in E. apply bind_ok in E as ([[d1 m1] n1] & E3 & E). injection E as Ed Em En. rewrite <- Ed. exact (goodbye_tp d e d1 m1 n1 Eu Sd E3).
  - left. exact Tb.
  - right. destruct (OutProbe.asked (hp (R d)) l) as [|r t] eqn:Ea; [destruct La; reflexivity|]. assert (I : In r (OutProbe.asked (hp (R d)) l)) by (rewrite Ea; left; reflexivity).
    apply OutProbe.asked_in in I as (I & X & EX & P). exists r. eexists. eexists. exists X. cbn [ev_call ev_result ev_before]. split; [reflexivity|]. split; [reflexivity|]. split; [reflexivity|]. split; [exact EX|]. unfold says. cbn [o_calls]. rewrite items_probe.
    split; apply in_or_app; [left|right]; apply in_flat_map; exists r; (split; [exact I|]); unfold at_rec; rewrite EX, P; left; reflexivity.
  - left. exact Tb.
Qed.

Lemma probe_bound : forall t0 cls frm l d T, 0 <= fst t0 -> history (mdnsd_new t0 cls frm) l d -> 0 <= T -> micros t0 <= T ->
  (forall ev, In ev l -> micros (e_now (ev_env ev)) <= T /\ (sends_probe ev -> micros (e_now (ev_env ev)) + 250000 <= T)) ->
  micros (now d) <= T /\ micros (t_probe (R d)) <= T.
Proof.
  intros t0 cls frm l d T N Hh T0 T1. induction Hh as [|l d e o x d' Hh IH L E]; intros F; [split; [exact T1|exact T0]|].
  destruct (IH (fun ev I => F ev (in_or_app _ _ _ (or_introl I)))) as [A B]. pose proof (history_reach _ _ _ (reach_new t0 cls frm N) Hh) as K.
  destruct (F (mkevent d e o x d') ltac:(apply in_or_app; right; left; reflexivity)) as [F1 F2]. cbn [ev_env] in F1, F2. split.
  - destruct (step_now d e o d' x K L E) as [-> | ->]; assumption.
  - assert (W : {o = OOut} + {o <> OOut}) by (destruct o; auto; right; discriminate). destruct W as [->|No].
    + destruct (out_result d e d' x E) as (m & n & ->). destruct (out_probe_sends d e d' m n K L E) as [-> |S]; [exact B|]. specialize (F2 S).
      destruct (out_probe_time d e d' m n K L E) as [[-> _]|[_ ->]]; [exact B|exact F2].
    + assert (W : makes_name o \/ ~ makes_name o) by (destruct o; cbn; auto). destruct W as [W|W].
      * destruct o; try destruct W. cbn [step] in E. apply on_new_ok in E as (s & r0 & E1 & -> & _). cbn [with_R R]. rewrite (unique_now _ _ _ _ _ _ _ _ E1). exact A.
      * rewrite (other_probe_time d e o d' x K E No W). exact B.
Qed.

(* A record is probed 250 ms after the last probe. *)
Lemma probe_due_sent : forall t0 cls frm l d e d' m n r, 0 <= fst t0 -> history (mdnsd_new t0 cls frm) l d -> legal d e OOut -> step d e OOut = Ok (d', RMsg m n) ->
  is_shutdown d = false -> uans (R d) = [] -> (forall x, ~ waits d Now x) -> (forall x, ~ waits d Pause x) -> waits d Probing r ->
  0 <= micros (e_now e) -> micros t0 <= micros (e_now e) -> (forall ev, In ev l -> micros (e_now (ev_env ev)) <= micros (e_now e)) ->
  (forall ev, In ev l -> sends_probe ev -> micros (e_now (ev_env ev)) + 250000 <= micros (e_now e)) ->
  probes_for r (mkevent d e OOut (RMsg m n) d') \/ waits d' Publish r.
Proof.
  intros t0 cls frm l d e d' m n r N Hh L E Sd Eu NN NA W T0 T1 F1 F2. pose proof (history_reach _ _ _ (reach_new t0 cls frm N) Hh) as K.
  destruct (probe_bound t0 cls frm l d (micros (e_now e)) N Hh T0 T1 (fun ev I => conj (F1 ev I) (F2 ev I))) as [_ B].
  destruct (reach_dinv d K) as (qs & H & C). assert (I : In r (qs Probing)) by (apply (waits_iff d qs Probing r H); exact W).
  destruct (hp (R d) r) as [X|] eqn:EX; [|exfalso; exact (queue_live _ _ _ _ H I EX)].
  pose proof (probe_sent d e d' m n r X K L E Sd Eu NN NA W EX B) as P. destruct (unique X =? 4); auto.
Qed.

(* Setting data makes the announcement due at once. *)
Lemma publish_now : forall s t r s' X, hp s r = Some X -> probes X = false -> r_publish s t r = Ok s' -> t_publish s' = t /\ uans s' = uans s.
Proof.
  intros s t r s' X EX P E. unfold r_publish in E. rewrite (hget_some _ _ _ EX) in E. cbn [bind] in E. cbv zeta in E. change (probes (set_modified X true)) with (probes X) in E. rewrite P in E.
  apply bind_ok in E as (s1 & E1 & E). split.
  - assert (A : t_publish s1 = t); [|rewrite <- A; clear - E; unfold r_push in E; apply bind_ok in E as (b & _ & E); destruct b; [done_same E|]; apply bind_ok in E as (Y & _ & E); done_same E].
    clear - E1. assert (G : forall a k q b, remove_unless a k q r = Ok b -> t_publish b = t_publish a).
    { intros a k q b E. unfold remove_unless in E. assert (Q : forall c, r_remove_list a q r = Ok c -> t_publish c = t_publish a) by (intros c Ec; unfold r_remove_list in Ec; destruct (ptr_eqb _ _); apply bind_ok in Ec as (Y & _ & Ec); done_same Ec).
      destruct (head a q); [|done_same E]. destruct k as [k|]; [|apply Q; exact E]. destruct (queue_eqb q k); [done_same E|apply Q; exact E]. }
    unfold r_remove_lists in E1. apply bind_ok in E1 as (a1 & A1 & E1). apply bind_ok in E1 as (a2 & A2 & E1). apply bind_ok in E1 as (a3 & A3 & E1). apply G in A1, A2, A3, E1. cbn [set_tpublish set_hp t_publish] in A1. congruence.
  - apply remove_lists_ua in E1. apply push_ua in E. cbn [set_tpublish set_hp uans] in E1. congruence.
Qed.

Lemma set_sent_soon : forall d e o d1 x r X e' d2 m n, reach d -> legal d e o -> sets_raw o r -> step d e o = Ok (d1, x) -> record d r X -> ~ in_probing X ->
  legal d1 e' OOut -> step d1 e' OOut = Ok (d2, RMsg m n) -> micros (now d) <= micros (e_now e') -> is_shutdown d = false -> uans (R d) = [] -> (forall y, ~ waits d1 Probing y) ->
  announces r (mkevent d1 e' OOut (RMsg m n) d2) \/ exists y Y, waits d1 Publish y /\ record d1 y Y /\ frame d <= packet_len (encode (o_calls m)) + rr_len (rr Y).
Proof.
  intros d e o d1 x r X e' d2 m n K L Sr E EX Np L' E' Tm Sd Eu NP. destruct (set_announces d e o d1 x r X K L Sr E EX Np) as (qs & H & Lr & Y & EY & _ & _ & Q).
  destruct (reach_dinv d K) as (qs0 & H0 & _). pose proof (ur_range _ _ _ (ri_u _ _ H0 r X EX)) as Ur. assert (P : probes X = false) by (unfold in_probing in Np; unfold probes; lia).
  assert (G : forall f, on_recs d (mdnsd_set (R d) (now d) r f) = Ok (d1, x) -> t_publish (R d1) = now d /\ uans (R d1) = uans (R d) /\ is_shutdown d1 = is_shutdown d /\ frame d1 = frame d).
  { intros f E1. apply on_recs_ok in E1 as (s & E1 & -> & _). cbn [with_R R is_shutdown frame]. unfold mdnsd_set, with_rr in E1. rewrite (hget_some _ _ _ EX) in E1. cbn [bind] in E1.
    destruct (publish_now (set_hp (R d) (hset (hp (R d)) r (set_rr X (f (rr X))))) (now d) r s (set_rr X (f (rr X))) (hset_same _ _ _) P E1) as [A B]. cbn [set_hp uans] in B. auto. }
  assert (G' : t_publish (R d1) = now d /\ uans (R d1) = uans (R d) /\ is_shutdown d1 = is_shutdown d /\ frame d1 = frame d) by (destruct o; cbn [sets_raw] in Sr; try destruct Sr; cbn [step] in E; eapply G; exact E).
  destruct G' as (G1 & G2 & G3 & G4). rewrite <- G4. eapply announcement_sent; [exact (reach_step _ _ _ _ _ K L E)|exact L'|exact E'|congruence|congruence|exact NP| |rewrite G1; exact Tm].
  apply (waits_iff d1 qs Publish r H). apply Q. lia.
Qed.

(* ------------------------------------------------------------------ *)
(* The time of sending *)
Lemma sent_when : forall d e d' m n r Y, reach d -> legal d e OOut -> step d e OOut = Ok (d', RMsg m n) -> singular d r -> multicasts r (mkevent d e OOut (RMsg m n) d') -> record d' r Y ->
  last_sent Y = e_now e.
Proof.
  intros d e d' m n r Y K L E Sg M EY. destruct (reach_dinv d K) as (qs & H & C). destruct (out_given d e d' m n qs H C L E) as (qs' & O & H').
  assert (Ws : forall l, map (as_answer (class d)) (with_recs (hp (R d)) l) = flat_map (at_rec (hp (R d)) (fun X => [shown_answer (class d) X])) l).
  { intros l. apply with_recs_map. intros x X. apply shown_as_answer. }
  assert (Qm : o_qr m = true /\ uans (R d) = []) by (destruct M as (m1 & n1 & X & _ & E1 & Q & U & _); cbn [ev_result ev_before] in E1, U; injection E1 as <- _; auto). destruct Qm as [Qm Um].
  assert (Fin : forall l P h', after (sent_rec (e_now e) l P) (hp (R d)) h' -> In r (l ++ P) -> h' r = Some Y -> last_sent Y = e_now e).
  { intros l P h' A I Eh. destruct (hp (R d) r) as [X|] eqn:EX; [|rewrite (after_none' _ _ _ _ A EX) in Eh; discriminate].
    pose proof (after_is _ _ _ _ _ A EX) as G. unfold sent_rec in G. destruct (mem r l) eqn:M1.
    - unfold replied in G. destruct (tdone X); [congruence|]. destruct G as (Z & EZ & NZ). rewrite Eh in EZ. injection EZ as <-. apply nolink_fields in NZ as (_ & _ & _ & _ & _ & ->). reflexivity.
    - assert (I2 : In r P) by (apply in_app_or in I as [I|I]; [apply mem_iff in I; congruence|exact I]). apply mem_iff in I2. rewrite I2 in G. unfold OutSafe.published in G.
      destruct (tdone X); [congruence|]. destruct G as (Z & EZ & NZ). rewrite Eh in EZ. injection EZ as <-. apply nolink_fields in NZ as (_ & _ & _ & _ & _ & ->). reflexivity. }
  destruct O as [u us X added Eu EX G|N restN P restP s' Eu Sd E1 E2 Dp A Ua Cf Bl|N restN P restP A restA s' added all seen Eu Sd D Eall Nall Eseen Af Ua Tp Tb Cf Tq G|N restN A restA s' l Eu Sd D E1 E2 El La Af Ua Cf Tp Tb Tq|N restN A restA s' q1 q' l m ret T V Eu Sd D E1 E2 El La Af Ua Cf Tp Tb Tq QO Ql Sh Zq Uq CK TO G]; try congruence; try discriminate.
  - eapply (Fin _ _ _ A); [|exact EY]. eapply (says_sent d e _ _ _ (sent_of (disco d) (hp (R d)) N ++ P) [] r); [|exact Sg|exact M].
    apply (sp_response _ _ _ _ []); auto. cbn [o_calls map]. rewrite app_nil_r, Ws. rewrite <- (app_nil_r (calls_of _ _ _)). rewrite items_answers by reflexivity. apply app_nil_r.
  - eapply (Fin _ _ _ Af); [|exact EY]. assert (I : In r all).
    { eapply (says_sent d e _ _ _ all [] r); [|exact Sg|exact M]. apply (sp_response _ _ _ _ (with_recs (hp s') added)); auto. cbn [o_calls]. rewrite Ws, with_recs_extra. apply items_response. }
    rewrite Eall in I. rewrite !in_app_iff in *. tauto.
Qed.

(* ------------------------------------------------------------------ *)
(* Known answers *)
Lemma known_sound : forall d e d' m n nm ty cls ttl x, reach d -> legal d e OOut -> step d e OOut = Ok (d', RMsg m n) -> o_qr m = false -> says m (IRecord SAn nm ty cls ttl x) ->
  cls = class d /\ says m (IQuestion nm ty cls) /\ (exists y, registered d y /\ is_for y nm ty) /\
  exists c, cache_holds d c /\ a_name (c_rr c) = nm /\ (a_type (c_rr c) = ty \/ ty = QTYPE_ANY) /\ x = a_copy (c_rr c) /\ ttl = a_ttl (c_rr c) - fst (e_now e) /\ 8 < ttl.
Proof.
  intros d e d' m n nm ty cls ttl x K L E Qm S. destruct (reach_dinv d K) as (qs & H & C). destruct (out_given d e d' m n qs H C L E) as (qs' & O & H').
  destruct O as [u us X added Eu EX G|N restN P restP s' Eu Sd E1 E2 Dp A Ua Cf Bl|N restN P restP A restA s' added all seen Eu Sd D Eall Nall Eseen Af Ua Tp Tb Cf Tq G|N restN A restA s' l Eu Sd D E1 E2 El La Af Ua Cf Tp Tb Tq|N restN A restA s' q1 q' l m ret T V Eu Sd D E1 E2 El La Af Ua Cf Tp Tb Tq QO Ql Sh Zq Uq CK TO G]; try discriminate Qm.
  - exfalso. unfold says in S. cbn [o_calls] in S. rewrite items_probe in S. apply in_app_or in S as [S|S]; apply in_flat_map in S as (r & _ & S); unfold at_rec in S; destruct (hp (R d) r) as [X|]; try (destruct S; fail); destruct (probed X); try (destruct S; fail); destruct S as [S|[]]; discriminate.
  - unfold says in *. cbn [o_calls] in *. unfold queries_out in QO. destruct (_ && _); [|destruct QO as (-> & _); destruct S]. destruct QO as (_ & (ks & -> & Ka & _) & _). rewrite items_query in *.
    apply in_app_or in S as [S|S]; apply in_map_iff in S as (k & Ek & Ik); [discriminate|]. rewrite Forall_forall in Ka. destruct (Ka k Ik) as ((q & Iq & Eq) & As & Ic & Mc & Fr). destruct k as [y c]. cbn [fst snd] in *.
    unfold shown_known in Ek. cbn [fst snd] in Ek. injection Ek as <- <- <- <- <-. split; [reflexivity|]. split.
    { apply in_or_app. left. apply in_map_iff. exists y. split; [reflexivity|]. apply filter_In. split; [|exact As]. apply queries_at_iff. eauto. }
    split; [exists y; split; [exists q; auto|split; reflexivity]|]. exists c. split; [apply (holds_bucket _ _ K); eauto|]. unfold c_match in Mc. apply andb_true_iff in Mc as [M1 M2]. apply bytes_eqb_eq in M2.
    split; [exact M2|]. split; [apply orb_true_iff in M1; unfold QTYPE_ANY in *; lia|]. split; [reflexivity|]. split; [reflexivity|lia].
Qed.

Lemma known_brought : forall t0 cls0 frm l d e d' m n nm ty cls ttl x, 0 <= fst t0 -> history (mdnsd_new t0 cls0 frm) l d -> legal d e OOut -> step d e OOut = Ok (d', RMsg m n) -> o_qr m = false ->
  says m (IRecord SAn nm ty cls ttl x) ->
  cls = class d /\ says m (IQuestion nm ty cls) /\ (exists y, registered d y /\ is_for y nm ty) /\
  exists ev m' from a y, In ev l /\ ev_call ev = OIn m' from /\ h_qr (m_header m') <> 0 /\ In a (m_an m') /\ rr_ttl a <> 0 /\ ~ own (ev_before ev) from /\ same_rr a y /\
    rr_name a = nm /\ (rr_type a = ty \/ ty = QTYPE_ANY) /\ x = a_copy y /\ ttl = fst (e_now (ev_env ev)) + rr_ttl a / 2 + 8 - fst (e_now e) /\ fst (e_now e) < fst (e_now (ev_env ev)) + rr_ttl a / 2 /\
    (15 <= rr_ttl a -> ttl <= fst (e_now (ev_env ev)) + rr_ttl a - fst (e_now e)).
Proof.
  intros t0 cls0 frm l d e d' m n nm ty cls ttl x N Hh L E Qm S. pose proof (history_reach _ _ _ (reach_new t0 cls0 frm N) Hh) as K.
  destruct (known_sound d e d' m n nm ty cls ttl x K L E Qm S) as (A1 & A2 & A3 & c & Hc & B1 & B2 & B3 & B4 & B5). split; [exact A1|]. split; [exact A2|]. split; [exact A3|].
  destruct (cache_brought t0 cls0 frm l d N Hh c Hc) as (ev & m' & from & a & I & C1 & C2 & C3 & C4 & C5 & C6 & C7 & _). exists ev, m', from, a, (c_rr c). pose proof C5 as (D1 & D2 & _).
  split; [exact I|]. split; [exact C1|]. split; [exact C2|]. split; [exact C3|]. split; [exact C4|]. split; [exact C7|]. split; [exact C5|]. split; [congruence|]. split; [rewrite D2; exact B2|]. split; [exact B3|]. rewrite B4, C6 in *. split; [lia|]. split; lia.
Qed.

Lemma known_complete : forall d e d' m n y c, reach d -> legal d e OOut -> step d e OOut = Ok (d', RMsg m n) -> o_qr m = false ->
  registered d y -> says m (IQuestion (q_nm y) (q_ty y) (class d)) -> not_probing d (q_nm y) ->
  cache_holds d c -> a_name (c_rr c) = q_nm y -> a_type (c_rr c) = q_ty y -> fst (e_now e) < a_ttl (c_rr c) ->
  says m (IRecord SAn (a_name (c_rr c)) (a_type (c_rr c)) (class d) (a_ttl (c_rr c) - fst (e_now e)) (a_copy (c_rr c))) \/
  exists c', cache_holds d c' /\ a_name (c_rr c') = q_nm y /\ (a_type (c_rr c') = q_ty y \/ q_ty y = QTYPE_ANY) /\
    (a_ttl (c_rr c') <= fst (e_now e) + 8 \/ frame d <= packet_len (encode (o_calls m)) + rr_len (c_rr c')).
Proof.
  intros d e d' m n y c K L E Qm (q & Iq & Eq) S NP Hc Nc Tc Fr. destruct (reach_dinv d K) as (qs & H & C). destruct (out_given d e d' m n qs H C L E) as (qs' & O & H').
  destruct O as [u us X added Eu EX G|N restN P restP s' Eu Sd E1 E2 Dp A Ua Cf Bl|N restN P restP A restA s' added all seen Eu Sd D Eall Nall Eseen Af Ua Tp Tb Cf Tq G|N restN A restA s' l Eu Sd D E1 E2 El La Af Ua Cf Tp Tb Tq|N restN A restA s' q1 q' l m ret T V Eu Sd D E1 E2 El La Af Ua Cf Tp Tb Tq QO Ql Sh Zq Uq CK TO G]; try discriminate Qm.
  - exfalso. unfold says in S. cbn [o_calls] in S. rewrite items_probe in S. apply in_app_or in S as [S|S]; apply in_flat_map in S as (r & Ir & S); unfold at_rec in S; destruct (hp (R d) r) as [X|] eqn:EX; try (destruct S; fail); destruct (probed X); try (destruct S; fail); destruct S as [S|[]]; [|discriminate].
    injection S as S _. apply (NP r X EX S). apply (waits_iff d qs Probing r H). subst l. unfold probe_due in Ir. destruct (_ <=? 0); [exact Ir|destruct Ir].
  - unfold says in *. cbn [o_calls] in *. unfold queries_out in QO. destruct (_ && _); [|destruct QO as (-> & _); destruct S]. destruct QO as (_ & (ks & -> & _ & Kf) & _). rewrite items_query in S |- *.
    assert (As : QryLoop.asks (fst (e_now e)) y = true).
    { apply in_app_or in S as [S|S]; apply in_map_iff in S as (z & Ez & Iz); [|discriminate]. apply filter_In in Iz as [Iz Az]. apply queries_at_iff in Iz as (q2 & _ & Eq2). injection Ez as Z1 Z2.
      destruct C as (C1 & _). rewrite (qi_one _ C1 q2 q z y Eq2 Eq Z1 Z2) in Eq2. congruence. }
    destruct C as (C1 & _). apply (holds_bucket _ _ K) in Hc as (i & Ic). pose proof (qi_cbucket _ C1 i c Ic) as Bi. rewrite Nc in Bi. subst i.
    assert (Mc : c_match (q_nm y) (q_ty y) c = true) by (unfold c_match; rewrite Nc, Tc, Z.eqb_refl, bytes_eqb_refl; reflexivity).
    destruct (Kf q y c Iq Eq As Ic Mc Fr) as [I|(c' & m1 & m2 & Ic' & Mc' & Em & B)].
    + left. apply in_or_app. right. apply in_map_iff. exists (y, c). split; [|exact I]. unfold shown_known. cbn [fst snd]. rewrite Nc, Tc. reflexivity.
    + right. exists c'. split; [apply (holds_bucket _ _ K); eauto|]. unfold c_match in Mc'. apply andb_true_iff in Mc' as [M1 M2]. apply bytes_eqb_eq in M2. split; [exact M2|]. split; [apply orb_true_iff in M1; unfold QTYPE_ANY in *; lia|].
      destruct B as [B|B]; [left; exact B|right]. rewrite Em. pose proof (mlen_app m1 m2) as Lm. unfold mlen in *. lia.
Qed.
