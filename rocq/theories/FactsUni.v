(* Who waits for a unicast reply, and where messages are sent. *)
From Verif Require Import Base Lemmas Hash HashProofs Wire Rec Qry Out In Api RecInv RecSafe RecOps RecAddr OutSafe OutExtra QryInv QryOps CacheOps QryReg QryLoop InSafe InLoop InResp OutAll OutSpec Shut DaemonInv SpecDaemon SpecLife SpecAnswer FactsCalls FactsItems FactsEvolve FactsIn FactsOut FactsFrame FactsDrain FactsFate FactsLife FactsDue.

Definition fewer (s s' : recs) : Prop := exists p, uans s' = filter p (uans s).
Lemma fewer_same : forall s s', uans s' = uans s -> fewer s s'.
Proof. intros s s' E. exists (fun _ => true). rewrite E. clear E. induction (uans s) as [|u l IH]; [reflexivity|]. cbn [filter]. rewrite <- IH. reflexivity. Qed.
Lemma fewer_in : forall s s' u, fewer s s' -> In u (uans s') -> In u (uans s).
Proof. intros s s' u (p & E) I. rewrite E in I. apply filter_In in I. apply I. Qed.
Lemma fewer_trans : forall s s1 s2, fewer s s1 -> fewer s1 s2 -> fewer s s2.
Proof.
  intros s s1 s2 (p & A) (q & B). exists (fun u => p u && q u). rewrite B, A. clear A B. induction (uans s) as [|u l IH]; [reflexivity|]. cbn [filter]. destruct (p u); cbn [filter andb]; [destruct (q u); congruence|exact IH].
Qed.

Lemma publish_ua : forall s t r s', r_publish s t r = Ok s' -> uans s' = uans s.
Proof.
  intros s t r s' E. unfold r_publish in E. apply bind_ok in E as (X & _ & E). cbv zeta in E. destruct (probes _); [done_same E|]. apply bind_ok in E as (s1 & E1 & E).
  apply push_ua in E. apply remove_lists_ua in E1. rewrite E, E1. reflexivity.
Qed.
Lemma send_ua : forall s t r s', r_send s t r = Ok s' -> uans s' = uans s.
Proof.
  intros s t r s' E. unfold r_send in E. apply bind_ok in E as (X & _ & E). cbv zeta in E. destruct (tries X <? 4); [done_same E|]. destruct (negb _); apply bind_ok in E as (s1 & E1 & E);
    apply push_ua in E; apply remove_lists_ua in E1; rewrite E, E1; reflexivity.
Qed.
Lemma r_done_ua : forall s r s', r_done s r = Ok s' -> fewer s s'.
Proof. intros s r s' E. unfold r_done in E. apply bind_ok in E as (X & _ & E). injection E as <-. cbn [set_hp u_remove set_uans uans set_pub]. eexists. reflexivity. Qed.
Lemma done_ua : forall s t r s', mdnsd_done s t r = Ok s' -> fewer s s'.
Proof.
  intros s t r s' E. unfold mdnsd_done in E. apply bind_ok in E as (X & _ & E). destruct (probes X).
  - apply bind_ok in E as (s1 & E1 & E). apply r_done_ua in E. destruct (ptr_eqb _ _); [injection E1 as <-; exact E|]. apply bind_ok in E1 as (h & _ & E1). injection E1 as <-. exact E.
  - apply fewer_same. apply send_ua in E. exact E.
Qed.
Lemma conflict_ua : forall s t r s', r_conflict s t r = Ok s' -> fewer s s'.
Proof. intros s t r s' E. unfold r_conflict in E. apply bind_ok in E as (X & _ & E). destruct (conflict X); [|discriminate]. apply done_ua in E. exact E. Qed.
Lemma set_ua : forall s t r f s', mdnsd_set s t r f = Ok s' -> uans s' = uans s.
Proof.
  intros s t r f s' E. unfold mdnsd_set, with_rr in E. apply bind_ok in E as (s1 & E1 & E). apply bind_ok in E1 as (X & _ & E1). injection E1 as <-. apply publish_ua in E. exact E.
Qed.
Lemma unique_ua : forall s t h ty ttl cb s' r, mdnsd_unique s t h ty ttl cb = Ok (s', r) -> uans s' = uans s.
Proof.
  intros s t h ty ttl cb s' r E1. unfold mdnsd_unique in E1. destruct (mdnsd_shared s h ty ttl) as [s1 r1] eqn:Es. apply bind_ok in E1 as (X & _ & E1). cbv zeta in E1.
  assert (U1 : uans s1 = uans s) by (unfold mdnsd_shared in Es; injection Es as <- _; reflexivity). apply bind_ok in E1 as (s2 & E2 & E1). apply bind_ok in E1 as (s3 & E3 & E1). injection E1 as <- _. cbn [set_tprobe uans].
  apply remove_lists_ua in E2. apply push_ua in E3. cbn [set_hp uans] in E2. congruence.
Qed.
Lemma add_addrs_ua : forall l s t host ty ttl s', add_addrs s t host ty ttl l = Ok s' -> uans s' = uans s.
Proof.
  induction l as [|i l IH]; intros s t host ty ttl s' E; cbn [add_addrs] in E; [done_same E|]. apply bind_ok in E as (b & _ & E). apply bind_ok in E as (s1 & E1 & E). apply IH in E. rewrite E.
  destruct b; [done_same E1|]. destruct (mdnsd_shared s host ty ttl) as [s2 r] eqn:Es. assert (U : uans s2 = uans s) by (unfold mdnsd_shared in Es; injection Es as <- _; reflexivity).
  rewrite <- U. destruct (ty =? QTYPE_A); eapply set_ua; exact E1.
Qed.
Lemma drop_addrs_ua : forall l s t host ty a s', drop_addrs s t l host ty a = Ok s' -> fewer s s'.
Proof.
  induction l as [|x l IH]; intros s t host ty a s' E; cbn [drop_addrs] in E; [injection E as <-; apply fewer_same; reflexivity|]. apply bind_ok in E as (X & _ & E). apply bind_ok in E as (s1 & E1 & E).
  apply IH in E. eapply fewer_trans; [|exact E]. destruct (_ && _); [eapply done_ua; exact E1|injection E1 as <-; apply fewer_same; reflexivity].
Qed.
Lemma update_ua : forall s t host ty l s', update_addresses s t host ty l = Ok s' -> fewer s s'.
Proof.
  intros s t host ty l s' E. unfold update_addresses in E. apply bind_ok in E as (f & _ & E). apply bind_ok in E as (ttl & _ & E). apply bind_ok in E as (s1 & E1 & E).
  apply add_addrs_ua in E1. apply drop_addrs_ua in E. eapply fewer_trans; [apply fewer_same; exact E1|exact E].
Qed.
Lemma set_hosts_ua : forall l s t a b s', set_hosts s t l a b = Ok s' -> fewer s s'.
Proof.
  induction l as [|n l IH]; intros s t a b s' E; cbn [set_hosts] in E; [injection E as <-; apply fewer_same; reflexivity|]. apply bind_ok in E as (s1 & E1 & E). apply bind_ok in E as (s2 & E2 & E).
  apply update_ua in E1, E2. apply IH in E. eapply fewer_trans; [exact E1|]. eapply fewer_trans; [exact E2|exact E].
Qed.
Lemma set_all_ua : forall l s t ty i s', set_all s t l ty i = Ok s' -> uans s' = uans s.
Proof.
  induction l as [|x l IH]; intros s t ty i s' E; cbn [set_all] in E; [done_same E|]. apply bind_ok in E as (X & _ & E). apply bind_ok in E as (s1 & E1 & E). apply IH in E. rewrite E.
  destruct (a_type (rr X) =? ty); [|done_same E1]. destruct (is_zero i); [done_same E1|]. destruct (ty =? QTYPE_A); eapply set_ua; exact E1.
Qed.
Lemma shutdown_all_ua : forall l s s', shutdown_all s l = Ok s' -> uans s' = uans s.
Proof. induction l as [|x l IH]; intros s s' E; cbn [shutdown_all] in E; [done_same E|]. apply bind_ok in E as (X & _ & E). apply IH in E. rewrite E. reflexivity. Qed.
Lemma clear_all_ua : forall l s s', clear_all s l = Ok s' -> fewer s s'.
Proof.
  induction l as [|x l IH]; intros s s' E; cbn [clear_all] in E; [injection E as <-; apply fewer_same; reflexivity|]. apply bind_ok in E as (X & _ & E). apply bind_ok in E as (s1 & E1 & E). cbv zeta in E. apply IH in E.
  apply remove_lists_ua in E1. eapply fewer_trans; [|exact E]. unfold fewer. cbn [set_hp u_remove set_uans uans]. rewrite E1. eexists. reflexivity.
Qed.
Lemma republish_ua : forall l s t x s' y, republish s t l x = Ok (s', y) -> uans s' = uans s.
Proof.
  induction l as [|[|r b] l IH]; intros s t x s' y E; cbn [republish] in E; [injection E as <- _; reflexivity|eapply IH; exact E|]. apply bind_ok in E as (X & _ & E). cbv zeta in E. apply bind_ok in E as (s1 & E1 & E).
  apply IH in E. rewrite E. destruct (_ <=? 2); [eapply push_ua; exact E1|done_same E1].
Qed.
Lemma sleep_ua : forall d e d' t, mdnsd_sleep d e = Ok (d', t) -> uans (R d') = uans (R d) /\ d_family d' = d_family d.
Proof.
  intros d e d' t E. unfold mdnsd_sleep in E. cbv zeta in E. destruct (uans (R d)) as [|u us] eqn:U; [|injection E as <- _; auto]. destruct (a_now (R d)); [injection E as <- _; auto|].
  destruct (a_pause _); [injection E as <- _; auto|]. destruct (probing _); [injection E as <- _; auto|]. destruct (a_publish _); [injection E as <- _; auto|]. destruct (negb _); [injection E as <- _; auto|].
  destruct (_ <? 0); [injection E as <- _; auto|]. apply bind_ok in E as ([s x] & E1 & E). injection E as <- _. apply republish_ua in E1. cbn [with_R R set_tpause uans d_family with_now] in *. rewrite E1. auto.
Qed.


Lemma other_ua : forall d e o d' x, (forall m from, o <> OIn m from) -> o <> OOut -> step d e o = Ok (d', x) ->
  fewer (R d) (R d') /\ d_family d' = match o with OSetFamily f => f | _ => d_family d end.
Proof.
  intros d e o d' x Ni No E.
  assert (A : forall r, on_recs d r = Ok (d', x) -> (forall s, r = Ok s -> fewer (R d) s) -> fewer (R d) (R d') /\ d_family d' = d_family d).
  { intros r Er F. unfold on_recs in Er. apply bind_ok in Er as (s & Es & Er). injection Er as <- _. split; [exact (F s Es)|reflexivity]. }
  destruct o; cbn [step] in E; try (destruct (Ni _ _ eq_refl)); try (destruct (No eq_refl));
    try (eapply A; [exact E|]; intros s Es; first [apply fewer_same; eapply set_ua; exact Es|eapply done_ua; exact Es|eapply update_ua; exact Es]); try (injection E as <- _; split; [apply fewer_same|]; reflexivity).
  - apply on_new_ok in E as (s & r & Es & -> & _). split; [apply fewer_same; eapply unique_ua; exact Es|reflexivity].
  - eapply A; [exact E|]. intros s Es. unfold set_interface_addresses in Es. destruct (e_ifs e); [|injection Es as <-; apply fewer_same; reflexivity]. cbv zeta in Es. apply bind_ok in Es as (h & _ & Es). eapply set_hosts_ua. exact Es.
  - destruct (bytes_eqb _ _); [injection E as <- _; split; [apply fewer_same; reflexivity|reflexivity]|]. apply bind_ok in E as (s & Es & E). injection E as <- _. split; [apply fewer_same; eapply set_all_ua; exact Es|reflexivity].
  - destruct (bytes_eqb _ _); [injection E as <- _; split; [apply fewer_same; reflexivity|reflexivity]|]. apply bind_ok in E as (s & Es & E). injection E as <- _. split; [apply fewer_same; eapply set_all_ua; exact Es|reflexivity].
  - apply bind_ok in E as (s & Es & E). injection E as <- _. split; [|reflexivity]. apply fewer_same. unfold shutdown_recs in Es. apply shutdown_all_ua in Es. exact Es.
  - eapply A; [exact E|]. intros s Es. unfold records_clear in Es. apply bind_ok in Es as (s1 & E1 & Es). injection Es as <-. apply clear_all_ua in E1. exact E1.
  - apply bind_ok in E as (q & _ & E). injection E as <- _. split; [apply fewer_same; reflexivity|reflexivity].
  - apply bind_ok in E as ([d1 t] & E1 & E). injection E as <- _. apply sleep_ua in E1 as [E1 E2]. split; [apply fewer_same; exact E1|exact E2].
Qed.

(* The call is a query for record r with this id from this address. *)
Definition queries (d : daemon) (o : op) (u : unicast) : Prop :=
  exists m q X, o = OIn m (u_to u) /\ h_qr (m_header m) = 0 /\ m_id m = u_id u /\ port (u_to u) <> 5353 /\ In q (m_qd m) /\ q_name q <> DISCO_NAME /\ wants d q (u_r u) X.

Lemma step_ua : forall d e o d' x, reach d -> legal d e o -> step d e o = Ok (d', x) ->
  (forall u, In u (uans (R d')) -> In u (uans (R d)) \/ queries d o u) /\ d_family d' = match o with OSetFamily f => f | _ => d_family d end.
Proof.
  intros d e o d' x K L E. destruct (reach_dinv d K) as (qs & H & C).
  assert (W : {o = OOut} + {o <> OOut}) by (destruct o; auto; right; discriminate). destruct W as [->|No].
  { destruct (out_result d e d' x E) as (m & n & ->). destruct (out_given d e d' m n qs H C L E) as (qs' & O & _). split; [|destruct O; reflexivity]. intros u I. left.
    destruct O as [u0 us X added Eu EX G| | | |]; cbn [with_expireall with_Q with_R R set_hp set_uans uans] in I.
    - rewrite Eu. right. exact I.
    - replace (uans s') with (@nil unicast) in I by (symmetry; assumption). destruct I.
    - replace (uans s') with (@nil unicast) in I by (symmetry; assumption). destruct I.
    - replace (uans s') with (@nil unicast) in I by (symmetry; assumption). destruct I.
    - replace (uans s') with (@nil unicast) in I by (symmetry; assumption). destruct I. }
  assert (W : (forall m from, o <> OIn m from) \/ exists m from, o = OIn m from) by (destruct o; eauto; left; discriminate). destruct W as [Ni|(m & from & ->)].
  { destruct (other_ua d e o d' x Ni No E) as [A B]. split; [|exact B]. intros u I. left. exact (fewer_in _ _ _ A I). }
  destruct L as [N W]. destruct (mdnsd_in_spec d e m from qs H C N W) as (d2 & n & qs' & E' & A & H' & C' & _). cbn [step] in E. rewrite E' in E. cbn [bind] in E. injection E as <- <-.
  destruct A as [?|i tm|i0 tm0 d2 qs' ? ? ? Qr EA|i0 tm0 d2 qs' ? ? ? ? EA].
  - auto.
  - auto.
  - set (d1 := into (with_now d (e_now e)) (R d) i0 tm0 (received d)) in *.
    destruct (questions_sound (m_qd m) d1 e from false (m_id m) (m_an m) qs H ltac:(discriminate)) as (s' & i' & tm' & L' & b & qs2 & Cf & E2 & _ & _ & _ & _ & _ & _ & U & _). rewrite EA in E2. injection E2 as ->.
    split; [|reflexivity]. intros u I. destruct (U u I) as [Iu|(q & X & Iq & Tg & Nd & Pt & Iu & To)]; [left; exact Iu|right]. subst from. exists m, q, X. repeat (split; [first [reflexivity|assumption|symmetry; assumption]|]).
    split; [apply bytes_eqb_neq; exact Nd|]. apply wants_iff. exact Tg.
  - set (d1 := into (with_now d (e_now e)) (R d) i0 tm0 (received d)) in *. destruct C as (C1 & C2 & C3 & C4).
    destruct (responses_sound (m_an m) d1 e from false qs H C1 N W ltac:(discriminate)) as (s' & q' & i' & tm' & L' & qs2 & U & Cf & E2 & _ & _ & _ & _ & _ & _ & Us & _). rewrite EA in E2. injection E2 as ->. split; [|reflexivity]. intros u I. left. apply Us. exact I.
Qed.

(* A record keeps its name and type. *)
Lemma step_identity : forall d e o d' x r Y, reach d -> legal d e o -> step d e o = Ok (d', x) -> (r < fresh (R d))%nat -> record d' r Y ->
  exists X, record d r X /\ a_name (rr Y) = a_name (rr X) /\ a_type (rr Y) = a_type (rr X).
Proof.
  intros d e o d' x r Y K L E Lt EY. destruct (reach_dinv d K) as (qs & H & C). unfold record in *.
  destruct (event_cases d e o d' x qs K H L E) as (qs' & H' & [(-> & m & n & S & B & -> & O & [F0 F] & _)|[(-> & Z)|(N1 & N2 & [_ O])]]).
  - destruct (hp (R d) r) as [X|] eqn:EX; [|rewrite (F0 r EX) in EY; discriminate]. exists X. split; [reflexivity|]. specialize (F r X EX). rewrite EY in F.
    assert (Er : rr Y = rr X); [|rewrite Er; auto]. inversion F; subst; try assumption; match goal with L : like X Y |- _ => destruct L; assumption end.
  - rewrite Z in EY. discriminate.
  - specialize (O r Lt). rewrite EY in O. destruct (hp (R d) r) as [X|]; [|destruct O]. exists X. split; [reflexivity|]. destruct O. auto.
Qed.

Lemma mcast_group : forall f, mcast f = group f.
Proof. intros f. unfold mcast, group, AF_INET6. destruct (Z.eqb_spec f 10) as [->|D]; reflexivity. Qed.

Lemma history_ua : forall t0 cls frm l d, 0 <= fst t0 -> history (mdnsd_new t0 cls frm) l d -> d_family d = family_set l /\
  forall u, In u (uans (R d)) -> exists ev m q, In ev l /\ ev_call ev = OIn m (u_to u) /\ h_qr (m_header m) = 0 /\ m_id m = u_id u /\ port (u_to u) <> 5353 /\ In q (m_qd m) /\
    (exists X, wants (ev_before ev) q (u_r u) X) /\ (u_r u < fresh (R d))%nat /\ forall Y, record d (u_r u) Y -> a_name (rr Y) = q_name q /\ (q_type q = a_type (rr Y) \/ q_type q = QTYPE_ANY).
Proof.
  intros t0 cls frm l d N Hh. induction Hh as [|l d e o x d' Hh IH L E]; [split; [reflexivity|intros u []]|]. pose proof (history_reach _ _ _ (reach_new t0 cls frm N) Hh) as K.
  destruct IH as [If IH]. destruct (step_ua d e o d' x K L E) as [U Fm]. split; [unfold family_set; rewrite fold_left_app; cbn [fold_left ev_call]; fold (family_set l); rewrite Fm, If; destruct o; reflexivity|].
  intros u I. destruct (step_fresh d e o d' x K L E) as [Fr _]. destruct (U u I) as [Iu|(m & q & X & -> & Qr & Im & Pt & Iq & Nd & Wn)].
  - destruct (IH u Iu) as (ev & m & q & I1 & I2 & I3 & I4 & I5 & I6 & I7 & I8 & I9). exists ev, m, q. split; [apply in_or_app; left; exact I1|]. repeat (split; [assumption|]). split; [lia|].
    intros Y EY. destruct (step_identity d e o d' x (u_r u) Y K L E I8 EY) as (X & EX & -> & ->). apply I9. exact EX.
  - exists (mkevent d e (OIn m (u_to u)) x d'), m, q. split; [apply in_or_app; right; left; reflexivity|]. cbn [ev_call ev_before]. repeat (split; [first [reflexivity|assumption]|]). split; [eauto|].
    destruct (reach_dinv d K) as (qs & H & C). destruct Wn as (W1 & W2 & W3 & W4). assert (Lt : (u_r u < fresh (R d))%nat) by (apply (qk_fresh _ _ (ri_q _ _ H)); unfold record in W2; congruence). split; [lia|].
    intros Y EY. destruct (step_identity d e _ d' x (u_r u) Y K L E Lt EY) as (X' & EX & -> & ->). unfold record in *. rewrite W2 in EX. injection EX as <-. split; [exact W3|]. exact W4.
Qed.

Lemma out_to : forall d e d' m n, reach d -> legal d e OOut -> step d e OOut = Ok (d', RMsg m n) ->
  (uans (R d) = [] /\ o_to m = group (d_family d) /\ o_id m = 0) \/
  (exists u us X, uans (R d) = u :: us /\ o_to m = u_to u /\ o_id m = u_id u /\ o_qr m = true /\ record d (u_r u) X /\ exists more, items (o_calls m) = IQuestion (a_name (rr X)) (a_type (rr X)) (class d) :: shown SAn (class d) X :: more).
Proof.
  intros d e d' m n K L E. destruct (uans (R d)) as [|u us] eqn:Eu.
  - left. destruct (reach_dinv d K) as (qs & H & C). destruct (out_given d e d' m n qs H C L E) as (qs' & O & _). rewrite <- mcast_group. destruct O; try congruence; auto.
  - right. destruct (unicast_sent d e u us K L Eu) as (d2 & m2 & X & E2 & EX & A1 & A2 & A3 & A4 & _). rewrite E in E2. injection E2 as _ <- _. exists u, us, X. auto 10.
Qed.

Lemma message_to : forall t0 cls frm l d e d' m n, 0 <= fst t0 -> history (mdnsd_new t0 cls frm) l d -> legal d e OOut -> step d e OOut = Ok (d', RMsg m n) ->
  (o_to m = group (family_set l) /\ o_id m = 0) \/
  (o_qr m = true /\ port (o_to m) <> 5353 /\ exists ev mq q r X Y more, In ev l /\ ev_call ev = OIn mq (o_to m) /\ h_qr (m_header mq) = 0 /\ m_id mq = o_id m /\ In q (m_qd mq) /\ wants (ev_before ev) q r X /\
    record d r Y /\ a_name (rr Y) = q_name q /\ (q_type q = a_type (rr Y) \/ q_type q = QTYPE_ANY) /\ items (o_calls m) = IQuestion (q_name q) (a_type (rr Y)) (class d) :: shown SAn (class d) Y :: more).
Proof.
  intros t0 cls frm l d e d' m n N Hh L E. pose proof (history_reach _ _ _ (reach_new t0 cls frm N) Hh) as K. destruct (history_ua t0 cls frm l d N Hh) as [Fm U].
  destruct (out_to d e d' m n K L E) as [(Eu & A & B)|(u & us & Y & Eu & A & B & Q & EY & more & Im)].
  - left. rewrite <- Fm. auto.
  - right. destruct (U u ltac:(rewrite Eu; left; reflexivity)) as (ev & mq & q & I1 & I2 & I3 & I4 & I5 & I6 & (X & I7) & _ & I9). destruct (I9 Y EY) as [J1 J2]. split; [exact Q|]. rewrite A, B. split; [exact I5|].
    exists ev, mq, q, (u_r u), X, Y, more. repeat (split; [assumption|]). rewrite <- J1. exact Im.
Qed.
