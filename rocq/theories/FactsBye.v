(* Goodbyes: records that were withdrawn, and all of them after mdnsd_shutdown. *)
From Verif Require Import Base Lemmas Hash HashProofs Wire Rec Qry Out In Api RecInv RecSafe RecOps RecAddr OutSafe OutPub OutProbe OutExtra QryInv QryOps CacheOps QryLoop OutAll OutSpec Shut DaemonInv SpecDaemon SpecLife FactsCalls FactsEvolve FactsItems FactsOut FactsFrame FactsDrain FactsFate FactsSize FactsLife.

Lemma answers_only : forall cls L E m, items (o_calls m) = map (as_answer cls) L ++ map (as_extra cls) E -> answers_of m = map (as_answer cls) L.
Proof. intros cls L E m Ei. unfold answers_of. rewrite Ei, filter_app, FactsOut.filter_all, filter_none, app_nil_r; [reflexivity| |]; intros p; reflexivity. Qed.

(* ------------------------------------------------------------------ *)
(* A record sent with TTL 0 is gone afterwards, others stay. *)
Lemma sent_then_gone : forall d e d' m n, reach d -> legal d e OOut -> step d e OOut = Ok (d', RMsg m n) -> uans (R d) = [] -> o_qr m = true ->
  exists L, answers_of m = map (as_answer (class d)) L /\ NoDup (map fst L) /\ forall r X, In (r, X) L ->
    record d r X /\ (exists q, q <> Probing /\ waits d q r) /\ (a_ttl (rr X) = 0 -> SpecLife.gone d' r) /\ (a_ttl (rr X) <> 0 -> exists Y, record d' r Y /\ rr Y = rr X /\ published d' r).
Proof.
  intros d e d' m n K Lg E Eu Q. destruct (reach_dinv d K) as (qs & H & C). destruct (out_given d e d' m n qs H C Lg E) as (qs' & O & H').
  destruct (out_fates d e qs d' m n qs' H O) as (S & B & [F0 F] & Sp & N & _ & _ & _ & _ & _ & Qs). destruct Sp as [U' _ _ _|Ex _ _ _ It|_ Q' _ _|_ Q' _ _ _]; try congruence.
  exists (with_recs (hp (R d)) S). split; [eapply answers_only; exact It|]. split.
  - rewrite with_recs_fst; [exact N|]. intros y I. destruct (Qs y I) as (k & _ & J). eapply queue_live; eassumption.
  - intros r X I. apply with_recs_in in I as [I EX]. split; [exact EX|]. destruct (Qs r I) as (k & Nk & J). split; [exists k; split; [exact Nk|]; apply (waits_iff d qs k r H); exact J|].
    specialize (F r X EX). remember (hp (R d') r) as V eqn:EV. symmetry in EV.
    assert (Pb : forall Y, hp (R d') r = Some Y -> published d' r) by (intros Y EY; apply (published_live d' (reach_step _ _ _ _ _ K Lg E)); exists Y; exact EY).
    destruct F as [I1 I2 I3|Y I1 I2 I3 (L1 & L2 & L3) I5|Y I1 I2 I3 I4 I5 I6 I7|Y I1 I2 I3|Y I1 I2 I3|Y I1 I2 I3 I4 (L1 & L2 & L3) I6|Y I1 I2 (L1 & L2 & L3) I4]; try contradiction; unfold tdone in *; split; intros T; try lia.
    + eapply gone_of; eassumption.
    + exists Y. split; [exact EV|]. split; [exact L1|]. eapply Pb; exact EV.
    + exists Y. split; [exact EV|]. split; [exact I4|]. eapply Pb; exact EV.
Qed.

(* ------------------------------------------------------------------ *)
(* A withdrawn record stays queued until it is sent. *)
Lemma leaving_stays : forall d0 l d r, reach d0 -> leaving d0 r -> history d0 l d ->
  (forall ev, In ev l -> ev_call ev <> OClear /\ (ev_call ev = OOut -> disco (ev_before ev) = false)) ->
  (r < fresh (R d))%nat /\ (leaving d r \/ (SpecLife.gone d r /\ exists l1 ev l2, l = l1 ++ ev :: l2 /\ multicasts r ev /\ leaving (ev_before ev) r /\ SpecLife.gone (ev_after ev) r)).
Proof.
  intros d0 l d r K (X0 & q0 & E0 & T0 & N0 & W0) Hh. induction Hh as [|l d e o x d' Hh IH Lg E]; intros C.
  - split; [|left; exists X0, q0; auto]. destruct (reach_dinv d0 K) as (qs & H & _). eapply rinv_lt; eassumption.
  - destruct (IH (fun ev I => C ev (in_or_app _ _ _ (or_introl I)))) as (Lr & J). clear IH. pose proof (history_reach _ _ _ K Hh) as Rd. pose proof (reach_step _ _ _ _ _ Rd Lg E) as Rd'.
    destruct (C (mkevent d e o x d') ltac:(apply in_or_app; right; left; reflexivity)) as [NC Dc]. cbn [ev_call ev_before] in NC, Dc.
    split; [eapply Nat.lt_le_trans; [exact Lr|apply (step_fresh d e o d' x Rd Lg E)]|]. destruct (reach_dinv d Rd) as (qs & H & _).
    destruct (event_cases d e o d' x qs Rd H Lg E) as (qs' & H' & [(-> & m & k & S & B & -> & O & [F0 F] & Sp & Nd & Qs)|[(-> & Z)|(N1 & N2 & O)]]); [|contradiction|].
    + destruct J as [J|(G & l1 & ev & l2 & -> & M & Lv & Ga)].
      * destruct J as (X & q & EX & TX & Nq & W). apply (waits_iff d qs q r H) in W. pose proof (queue_verified _ _ _ _ _ H W Nq EX) as Uv. specialize (F r X EX).
        assert (NP : ~ In r (qs Probing)) by (intros I; apply (ur_probing _ _ _ (ri_u _ _ H r X EX)) in I; lia).
        remember (hp (R d') r) as V eqn:EV. symmetry in EV.
        destruct F as [I1 I2 I3|Y I1 I2 I3 (L1 & L2 & L3) I5|Y I1 I2 I3 I4 I5 I6 I7|Y I1 I2 I3|Y I1 I2 I3|Y I1 I2 I3 I4 (L1 & L2 & L3) I6|Y I1 I2 (L1 & L2 & L3) I4]; try contradiction; unfold tdone in *; try lia.
        -- right. pose proof (gone_of _ _ _ H' EV) as Gn. split; [exact Gn|]. exists l, (mkevent d e OOut (RMsg m k) d'), []. split; [reflexivity|]. cbn [ev_after ev_before]. split; [eapply sent_says; eassumption|]. split; [|exact Gn].
           exists X, q. repeat (split; auto). apply (waits_iff d qs q r H). exact W.
        -- rewrite Dc in I3 by reflexivity. discriminate.
        -- left. exists Y, q. split; [exact EV|]. split; [congruence|]. split; [exact Nq|]. apply (waits_iff d' qs' q r H'). apply I4. exact W.
      * right. split; [eapply gone_of; [exact H'|]; apply F0; destruct (hp (R d) r) eqn:EX; [|reflexivity]; destruct (proj1 G _ EX)|]. exists l1, ev, (l2 ++ [mkevent d e OOut (RMsg m k) d']). rewrite <- app_assoc. auto.
    + destruct O as [_ O]. specialize (O r Lr). destruct J as [J|(G & l1 & ev & l2 & -> & M & Lv & Ga)].
      * destruct J as (X & q & EX & TX & Nq & W). unfold record in EX. rewrite EX in O. apply (waits_iff d qs q r H) in W. pose proof (queue_verified _ _ _ _ _ H W Nq EX) as Uv. left.
        destruct (hp (R d') r) as [Y|] eqn:EY; [|unfold probes in O; lia]. destruct (fo_queue _ _ _ _ _ _ O (ex_intro _ q (conj Nq W))) as (q' & Nq' & W'). exists Y, q'. split; [exact EY|].
        split; [destruct (fo_ttl _ _ _ _ _ _ O); congruence|]. split; [exact Nq'|]. apply (waits_iff d' qs' q' r H'). exact W'.
      * right. split; [eapply gone_of; [exact H'|]; destruct (hp (R d) r) eqn:EX; [destruct (proj1 G _ EX)|]; destruct (hp (R d') r); [destruct O|reflexivity]|]. exists l1, ev, (l2 ++ [mkevent d e o x d']). rewrite <- app_assoc. auto.
Qed.

(* ------------------------------------------------------------------ *)
(* mdnsd_done queues the goodbye of every record whose data was set. *)
Definition known (qs : queue -> list nat) (r : nat) (X : mrec) : Prop := probes X = true \/ In r (qs Publish) \/ tries X = 4.

Lemma known_stays : forall d0 l d r, reach d0 -> (r < fresh (R d0))%nat -> (exists qs, rinv (R d0) qs /\ forall X, record d0 r X -> known qs r X) -> history d0 l d ->
  (r < fresh (R d))%nat /\ exists qs, rinv (R d) qs /\ forall X, record d r X -> known qs r X.
Proof.
  intros d0 l d r K L0 P0 Hh. induction Hh as [|l d e o x d' Hh [Lr (qs & H & P)] Lg E]; [auto|]. pose proof (history_reach _ _ _ K Hh) as Rd.
  split; [eapply Nat.lt_le_trans; [exact Lr|apply (step_fresh d e o d' x Rd Lg E)]|].
  destruct (event_cases d e o d' x qs Rd H Lg E) as (qs' & H' & W). exists qs'. split; [exact H'|]. intros Y EY. unfold record in EY.
  destruct W as [(-> & m & k & S & B & -> & O & [F0 F] & Sp & Nd & Qs)|[(-> & Z)|(N1 & N2 & O)]].
  - destruct (hp (R d) r) as [X|] eqn:EX; [|rewrite (F0 r EX) in EY; discriminate]. specialize (F r X EX). rewrite EY in F. specialize (P X EX).
    pose proof (ri_u _ _ H r X EX) as U. pose proof (ri_u _ _ H' r Y EY) as U'. pose proof (ur_tries _ _ _ U) as Tr. pose proof (ur_tries _ _ _ U') as Tr'.
    assert (Ds : forall a b, In r (qs a) -> In r (qs b) -> a = b) by (intros a b; apply (queues_apart _ _ _ _ _ H)).
    assert (Off : In r (qs Now) \/ In r (qs Pause) -> tries X = 4).
    { intros [J|J]; (destruct P as [P|[P|P]]; [|pose proof (Ds _ _ J P); discriminate|exact P]); exfalso;
        [pose proof (queue_verified _ _ _ _ _ H J ltac:(discriminate) EX)|pose proof (queue_verified _ _ _ _ _ H J ltac:(discriminate) EX)]; unfold probes in P; lia. }
    unfold known. inversion F as [|Y' I T Qu (L1 & L2 & L3) Q|Y' I T Qu L1 L2 L3 Q|Y' I J Qu U1 L1 L2 L3 Q|Y' I J Qu U1 L1 L2 L3 Q|Y' I J Dx Qu (L1 & L2 & L3) Q|Y' I J (L1 & L2 & L3) Q]; subst Y'.
    + right. right. rewrite L3. auto.
    + right. destruct (Z_lt_ge_dec (tries Y) 4) as [A|A]; [left; apply Q; auto|right; lia].
    + left. apply (ur_probing _ _ _ U) in Qu. unfold probes. lia.
    + right. left. apply Q. reflexivity.
    + right. right. rewrite L3. auto.
    + destruct P as [P|[P|P]]; [left; rewrite (probes_as X Y L2); exact P|right; left; apply Q; exact P|right; right; congruence].
  - rewrite Z in EY. discriminate.
  - destruct O as [_ O]. specialize (O r Lr). rewrite EY in O. destruct (hp (R d) r) as [X|] eqn:EX; [|destruct O]. destruct (P X EX) as [A|[A|A]]; unfold known.
    + left. rewrite (probes_as X Y (fo_unique _ _ _ _ _ _ O)). exact A.
    + right. left. exact (fo_publish _ _ _ _ _ _ O A).
    + destruct (fo_done _ _ _ _ _ _ O A); auto.
Qed.

Lemma set_known : forall d e o d1 x r, reach d -> legal d e o -> sets_raw o r -> step d e o = Ok (d1, x) ->
  (r < fresh (R d1))%nat /\ exists qs, rinv (R d1) qs /\ forall X, record d1 r X -> known qs r X.
Proof.
  intros d e o d1 x r K Lg Sr E. pose proof Lg as [_ L]. destruct (reach_dinv d K) as (qs & H & _).
  assert (Lv : exists X, hp (R d) r = Some X) by (destruct o; cbn [sets_raw] in Sr; try destruct Sr; cbn [legal] in L; try destruct L as [L _]; unfold live in L; destruct (hp (R d) _); try contradiction; eauto).
  destruct Lv as (X & EX). destruct (probes X) eqn:P.
  - assert (G : forall f, keeps_id f -> on_recs d (mdnsd_set (R d) (now d) r f) = Ok (d1, x) -> (r < fresh (R d1))%nat /\ exists qs, rinv (R d1) qs /\ forall X, record d1 r X -> known qs r X).
    { intros f Kf E1. destruct (set_onward (eq r) (R d) qs (now d) r f X H Kf EX eq_refl) as (s' & qs' & Y & E' & H' & O' & _ & EY & _ & UY & T). unfold on_recs in E1. rewrite E' in E1. injection E1 as <- _.
      split; [eapply rinv_lt; eassumption|]. exists qs'. split; [exact H'|]. intros Y' EY'. unfold record in EY'. cbn [R with_R] in EY'. rewrite EY in EY'. injection EY' as <-. left. rewrite (probes_as X Y UY). exact P. }
    destruct o; cbn [sets_raw] in Sr; try destruct Sr; cbn [step] in E.
    + eapply G; [apply keeps_raw|exact E].
    + eapply G; [apply keeps_host|exact E].
    + eapply G; [apply keeps_ip|exact E].
    + eapply G; [apply keeps_ip6|exact E].
    + eapply G; [apply keeps_srv|exact E].
  - destruct (set_announces d e o d1 x r X K Lg Sr E EX) as (qs' & H' & Lr & Y & EY & T & U & Q).
    + pose proof (ur_range _ _ _ (ri_u _ _ H r X EX)). unfold in_probing. unfold probes in P. lia.
    + split; [exact Lr|]. exists qs'. split; [exact H'|]. intros Y' EY'. right. left. apply Q. lia.
Qed.

Lemma withdrawn_leaves : forall d0 l d r X e d' x, reach d0 -> history d0 l d -> (exists ev, In ev l /\ sets_raw (ev_call ev) r) -> record d r X -> ~ in_probing X ->
  legal d e (ODone r) -> step d e (ODone r) = Ok (d', x) -> leaving d' r.
Proof.
  intros d0 l d r X e d' x K Hh (ev & Iv & Sv) EX Np Lg E.
  apply in_split in Iv as (l1 & l2 & ->). destruct (history_split _ _ _ _ _ Hh) as (H1 & Lv & Ev). pose proof (history_reach _ _ _ K H1) as Rv.
  destruct (set_known _ _ _ _ _ r Rv Lv Sv Ev) as (Lr & Kn).
  assert (H2 : history (ev_after ev) l2 d).
  { clear - Hh. remember (l1 ++ ev :: l2) as l eqn:El. revert l2 El. induction Hh as [|l d e o x d' Hh IH Lg E]; intros l2 El; [destruct l1; discriminate|].
    destruct l2 as [|b l2] using rev_ind.
    - assert (El' : l ++ [mkevent d e o x d'] = l1 ++ [ev]) by exact El. apply app_inj_tail in El' as [-> <-]. constructor.
    - clear IHl2. rewrite app_comm_cons, app_assoc in El. apply app_inj_tail in El as [-> <-]. constructor; auto. }
  destruct (known_stays _ _ _ _ (reach_step _ _ _ _ _ Rv Lv Ev) Lr Kn H2) as (_ & qs & H & P). specialize (P X EX).
  pose proof (ur_range _ _ _ (ri_u _ _ H r X EX)) as Ur. assert (Pb : probes X = false) by (unfold in_probing in Np; unfold probes; lia). destruct P as [P|P]; [congruence|].
  destruct (done_onward (fun _ => False) (R d) qs (now d) r X H EX) as (s' & qs' & E' & H' & O & _ & G). destruct (G Pb) as ((Y & EY & NY) & ->). cbn [step] in E. unfold on_recs in E. rewrite E' in E. injection E as <- _.
  assert (W : exists q, q <> Probing /\ In r (sent_queues X r qs q)).
  { destruct P as [P|P].
    - exists Publish. split; [discriminate|]. destruct (sent_keeps _ _ _ _ H EX) as [A _]. auto.
    - unfold sent_queues, send_queue. rewrite P. cbn [Z.ltb Z.compare]. destruct (unique X =? 0); [exists Pause|exists Now]; (split; [discriminate|]); (apply enq_in; [apply (qk_nodup _ _ (ri_q _ _ H))|left; auto]). }
  destruct W as (q & Nq & W). exists Y, q. split; [exact EY|]. split; [apply nolink_fields in NY as (N1 & _); rewrite N1; reflexivity|]. split; [exact Nq|]. apply (waits_iff (with_R d s') _ q r H'). exact W.
Qed.

(* ------------------------------------------------------------------ *)
(* What waits as a reply is sent by the next mdnsd_out, or the message is full. *)
Lemma reply_sent : forall d e d' m n r, reach d -> legal d e OOut -> step d e OOut = Ok (d', RMsg m n) -> uans (R d) = [] -> disco d = false -> waits d Now r ->
  multicasts r (mkevent d e OOut (RMsg m n) d') \/ exists y Y, waits d Now y /\ record d y Y /\ frame d <= packet_len (encode (o_calls m)) + rr_len (rr Y).
Proof.
  intros d e d' m n r K Lg E Eu Dc W. destruct (reach_dinv d K) as (qs & H & C). destruct (out_given d e d' m n qs H C Lg E) as (qs' & O & H').
  assert (Ir : In r (qs Now)) by (apply (waits_iff d qs Now r H); exact W).
  assert (Full : forall a rest c, blocked (hp (R d)) (frame d) a rest -> In r rest -> (exists t, qs Now = t ++ rest) -> a ++ c = o_calls m -> exists y Y, waits d Now y /\ record d y Y /\ frame d <= packet_len (encode (o_calls m)) + rr_len (rr Y)).
  { intros a rest c B I (t & Q) Em. destruct rest as [|y rest]; [destruct I|]. destruct B as (Y & EY & B). exists y, Y. split; [|split; [exact EY|]].
    - apply (waits_iff d qs Now y H). rewrite Q. apply in_or_app. right. left. reflexivity.
    - pose proof (mlen_app a c) as L. rewrite Em in L. unfold mlen in *. lia. }
  destruct (hp (R d) r) as [X|] eqn:EX; [|exfalso; exact (queue_live _ _ _ _ H Ir EX)].
  assert (So : forall l, In r l -> In r (sent_of (disco d) (hp (R d)) l)) by (intros l I; destruct (sent_or (disco d) (hp (R d)) l r X EX I); [assumption|congruence]).
  destruct O as [u us X0 added Eu' EX0 G|N restN P restP s' Eu' Sd' E1 E2 Dp A Ua Cf Bl|N restN P restP A restA s' added all seen Eu' Sd' D Eall Nall Eseen Af Ua Tp Tb Cf Tq G|N restN A restA s' l Eu' Sd' D E1 E2 El La Af Ua Cf Tp Tb Tq|N restN A restA s' q1 q' l m ret T V Eu' Sd' D E1 E2 El La Af Ua Cf Tp Tb Tq QO Ql Sh Zq Uq CK TO G]; try congruence.
  - rewrite E1 in Ir. apply in_app_or in Ir as [Ir|Ir].
    + left. eexists _, _, X. cbn [ev_call ev_result ev_before]. split; [reflexivity|]. split; [reflexivity|]. cbn [o_qr]. repeat (split; auto). unfold says. cbn [o_calls]. rewrite <- (app_nil_r (calls_of _ _ _)), items_answers by reflexivity. rewrite app_nil_r.
      apply in_flat_map. exists r. split; [apply in_or_app; auto|]. unfold at_rec. rewrite EX. left. symmetry. apply shown_as_answer.
    + right. eapply (Full _ _ (calls_of (class d) (hp (R d)) P)); [exact Bl|exact Ir|eauto|]. cbn [o_calls]. rewrite calls_of_app. reflexivity.
  - destruct D as [D1 D2 D3 _ _ D6 _ _]. rewrite D1 in Ir. apply in_app_or in Ir as [Ir|Ir].
    + left. eexists _, _, X. cbn [ev_call ev_result ev_before]. split; [reflexivity|]. split; [reflexivity|]. cbn [o_qr]. repeat (split; auto). unfold says. cbn [o_calls]. rewrite items_response. apply in_or_app. left. apply in_flat_map. exists r. split.
      * rewrite Eall, !in_app_iff. auto.
      * unfold at_rec. rewrite EX. left. symmetry. apply shown_as_answer.
    + right. subst all. eapply (Full _ _ (calls_of (class d) (hp (R d)) (P ++ sent_of (disco d) (hp (R d)) A) ++ extras (class d) (hp s') added)); [exact D6|exact Ir|eauto|]. cbn [o_calls].
      rewrite !calls_of_app, <- !app_assoc. reflexivity.
  - destruct D as [D1 D2 D3 _ _ D6 _ _]. rewrite D1 in Ir. apply in_app_or in Ir as [Ir|Ir]; [apply So in Ir; rewrite E1 in Ir; destruct Ir|]. right. eapply Full; [exact D6|exact Ir|eauto|]. rewrite E1. reflexivity.
  - destruct D as [D1 D2 D3 _ _ D6 _ _]. rewrite D1 in Ir. apply in_app_or in Ir as [Ir|Ir]; [apply So in Ir; rewrite E1 in Ir; destruct Ir|]. right. eapply Full; [exact D6|exact Ir|eauto|]. rewrite E1. reflexivity.
Qed.

(* ------------------------------------------------------------------ *)
(* Shutdown *)
(* The state while the goodbyes are sent: [order] is what is still to be sent. *)
Record closing (d0 d : daemon) (order : list nat) : Prop := mkclosing {
  cl_down : is_shutdown d = true;
  cl_disco : disco d = false;
  cl_class : class d = class d0;
  cl_frame : frame d = frame d0;
  cl_inv : rinv (R d) (on Now order (fun _ => []));
  cl_live : forall r, hp (R d) r <> None -> In r order;
  cl_same : forall r X, hp (R d) r = Some X -> exists X0, hp (R d0) r = Some X0 /\ rr X = set_ttl (rr X0) 0 /\ unique X = unique X0
}.

Lemma farewell_as : forall d0 d order l, closing d0 d order -> map (as_answer (class d)) (with_recs (hp (R d)) l) = map (farewell (class d)) (with_recs (hp (R d0)) (filter (fun r => match hp (R d) r with Some _ => true | None => false end) l)).
Proof.
  intros d0 d order l Cl. induction l as [|r l IH]; [reflexivity|]. unfold with_recs in *. cbn [flat_map filter]. rewrite map_app, IH. destruct (hp (R d) r) as [X|] eqn:EX; [|reflexivity].
  destruct (cl_same _ _ _ Cl r X EX) as (X0 & E0 & Er & Eu). cbn [flat_map map app]. rewrite E0. cbn [map app]. f_equal. unfold as_answer, farewell, shown, flushing. cbn [snd]. rewrite Er, Eu. reflexivity.
Qed.
Lemma sent_all : forall h l, (forall x, In x l -> h x <> None) -> sent_of false h l = l.
Proof.
  intros h l L. unfold sent_of. induction l as [|x l IH]; [reflexivity|]. cbn [filter]. unfold holds at 1. destruct (h x) as [X|] eqn:E; [|exfalso; exact (L x (or_introl eq_refl) E)]. cbn [negb andb]. f_equal. apply IH. intros y I. apply L. right. exact I.
Qed.
Lemma filter_live : forall (h : heap) l, (forall x, In x l -> h x <> None) -> filter (fun r => match h r with Some _ => true | None => false end) l = l.
Proof.
  intros h l L. induction l as [|x l IH]; [reflexivity|]. cbn [filter]. destruct (h x) as [X|] eqn:E; [|exfalso; exact (L x (or_introl eq_refl) E)]. f_equal. apply IH. intros y I. apply L. right. exact I.
Qed.

(* One mdnsd_out *)
Lemma closing_out : forall d0 d order e d' m n, reach d -> closing d0 d order -> (forall r X, hp (R d0) r = Some X -> 12 + rr_len (rr X) < frame d0) ->
  legal d e OOut -> step d e OOut = Ok (d', RMsg m n) ->
  (exists u us, uans (R d) = u :: us /\ uans (R d') = us /\ closing d0 d' order) \/
  (uans (R d) = [] /\ uans (R d') = [] /\ exists N rest, order = N ++ rest /\ (order <> [] -> N <> []) /\ closing d0 d' rest /\ answers_of m = map (farewell (class d0)) (with_recs (hp (R d0)) N) /\ n = zlen N /\ (N = [] -> o_calls m = [])).
Proof.
  intros d0 d order e d' m n K Cl Fit Lg E. destruct (reach_dinv d K) as (_ & _ & C). pose proof (cl_inv _ _ _ Cl) as H. destruct (out_given d e d' m n _ H C Lg E) as (qs' & O & H').
  pose proof (cl_down _ _ _ Cl) as Sd. pose proof (cl_disco _ _ _ Cl) as Dc.
  destruct O as [u us X0 added Eu' EX0 G|N restN P restP s' Eu' Sd' E1 E2 Dp A Ua Cf Bl|N restN P restP A restA s' added all seen Eu' Sd' D Eall Nall Eseen Af Ua Tp Tb Cf Tq G|N restN A restA s' l Eu' Sd' D E1 E2 El La Af Ua Cf Tp Tb Tq|N restN A restA s' q1 q' l m ret T V Eu' Sd' D E1 E2 El La Af Ua Cf Tp Tb Tq QO Ql Sh Zq Uq CK TO G]; try congruence.
  - left. exists u, us. split; [exact Eu'|]. split; [reflexivity|]. destruct Cl as [C1 C2 C3 C4 C5 C6 C7]. split; try assumption.
    + intros r Hr. apply C6. intros Z. apply Hr. cbn [R with_R set_hp hp]. unfold hset. destruct (Nat.eqb r (u_r u)) eqn:D; [apply Nat.eqb_eq in D; congruence|exact Z].
    + intros r X EX. cbn [R with_R set_hp hp] in EX. unfold hset in EX. destruct (Nat.eqb r (u_r u)) eqn:D; [|apply C7; exact EX]. apply Nat.eqb_eq in D. subst r. injection EX as <-. apply (C7 _ _ EX0).
  - right. split; [exact Eu'|]. split; [exact Ua|]. cbn [on queue_eqb] in E1, E2. assert (P = [] /\ restP = []) as [-> ->] by (destruct P; [destruct restP; [auto|discriminate]|discriminate]).
    assert (Lv : forall x, In x order -> hp (R d) x <> None) by (intros x I; apply (queue_live (R d) _ Now x H); cbn [on queue_eqb]; exact I).
    assert (LN : forall x, In x N -> hp (R d) x <> None) by (intros x I; apply Lv; rewrite E1; apply in_or_app; auto). rewrite Dc in *. rewrite (sent_all _ _ LN) in *.
    exists N, restN. split; [exact E1|]. split; [|split; [|split; [|split]]].
    + intros No ->. cbn [app] in E1. subst restN. destruct order as [|x order]; [contradiction|]. destruct Bl as (X & EX & B). cbn [calls_of flat_map] in B. rewrite mlen_nil in B.
      destruct (cl_same _ _ _ Cl x X EX) as (X0 & EX0 & Er & _). specialize (Fit x X0 EX0). rewrite Er in B. change (rr_len (set_ttl (rr X0) 0)) with (rr_len (rr X0)) in B. rewrite (cl_frame _ _ _ Cl) in B. lia.
    + cbn [on queue_eqb app stays filter] in H'. destruct Cl as [C1 C2 C3 C4 C5 C6 C7]. split; try assumption.
      * cbn [R with_R with_now]. eapply rinv_ext; [exact H'|]. intros k. destruct k; reflexivity.
      * cbn [R with_R]. intros r Hr. destruct (hp (R d) r) as [X|] eqn:EX; [|exfalso; apply Hr; eapply after_none'; eassumption].
        assert (I : In r order) by (apply C6; congruence). rewrite E1 in I. apply in_app_or in I as [I|I]; [|exact I]. exfalso. apply Hr. pose proof (after_is _ _ _ _ _ A EX) as Af. unfold sent_rec in Af.
        replace (mem r N) with true in Af by (symmetry; apply mem_iff; exact I). unfold replied in Af. destruct (C7 r X EX) as (X0 & _ & Er & _). replace (tdone X) with true in Af by (unfold tdone; rewrite Er; reflexivity). exact Af.
      * cbn [R with_R]. intros r Y EY. destruct (hp (R d) r) as [X|] eqn:EX; [|rewrite (after_none' _ _ _ _ A EX) in EY; discriminate]. pose proof (after_is _ _ _ _ _ A EX) as Af. destruct (C7 r X EX) as (X0 & E0 & Er & Eu). unfold sent_rec in Af.
        destruct (mem r N) eqn:M.
        -- unfold replied in Af. replace (tdone X) with true in Af by (unfold tdone; rewrite Er; reflexivity). congruence.
        -- cbn [mem existsb] in Af. destruct Af as (Y' & EY' & NY). rewrite EY in EY'. injection EY' as <-. apply nolink_fields in NY as (N1 & N2 & _). exists X0. split; [exact E0|]. split; congruence.
    + unfold answers_of. cbn [o_calls]. rewrite app_nil_r. rewrite <- (app_nil_r (calls_of _ _ _)), items_answers by reflexivity. cbn [items]. rewrite app_nil_r.
      rewrite <- (with_recs_map _ (hp (R d)) (as_answer (class d)) (shown_answer (class d)) N (fun r X => shown_as_answer (class d) r X)). rewrite FactsOut.filter_all by (intros p; reflexivity).
      rewrite (farewell_as _ _ _ N Cl), (filter_live _ _ LN), (cl_class _ _ _ Cl). reflexivity.
    + rewrite app_nil_r. reflexivity.
    + intros ->. reflexivity.
Qed.

Lemma with_recs_app : forall h a b, with_recs h (a ++ b) = with_recs h a ++ with_recs h b.
Proof. intros h a b. unfold with_recs. apply flat_map_app. Qed.

Lemma closing_history : forall d0 d1 order l d, reach d1 -> closing d0 d1 order -> (forall r X, hp (R d0) r = Some X -> 12 + rr_len (rr X) < frame d0) ->
  history d1 l d -> (forall ev, In ev l -> ev_call ev = OOut \/ ev_call ev = OEndStep \/ exists m from, ev_call ev = OIn m from) ->
  exists sent rest n, order = sent ++ rest /\ closing d0 d rest /\ concat (map goodbyes l) = map (farewell (class d0)) (with_recs (hp (R d0)) sent) /\ times calls_out n l /\
    (length (uans (R d)) + length rest <= length (uans (R d1)) + length order - n)%nat.
Proof.
  intros d0 d1 order l d K Cl Fit Hh. induction Hh as [|l d e o x d' Hh IH Lg E]; intros Ev.
  - exists [], order, 0%nat. split; [reflexivity|]. split; [exact Cl|]. split; [reflexivity|]. split; [constructor|lia].
  - destruct (IH (fun ev I => Ev ev (in_or_app _ _ _ (or_introl I)))) as (sent & rest & n & Eo & Cd & Eg & Tn & Ln). pose proof (history_reach _ _ _ K Hh) as Rd.
    rewrite map_app, concat_app, Eg. cbn [map concat]. rewrite app_nil_r. unfold goodbyes. cbn [ev_result ev_before].
    destruct (Ev (mkevent d e o x d') ltac:(apply in_or_app; right; left; reflexivity)) as [Eo'|[Eo'|(mi & fr & Eo')]]; cbn [ev_call] in Eo'; subst o.
    + destruct (out_result d e d' x E) as (m & k & ->). destruct (closing_out d0 d rest e d' m k Rd Cd Fit Lg E) as [(u & us & Eu & Eu' & Cd')|(Eu & Eu' & N & rest' & Er & Ne & Cd' & Ea & Ek & Ez)].
      * exists sent, rest, (S n). split; [exact Eo|]. split; [exact Cd'|]. rewrite Eu. split; [apply app_nil_r|]. split; [apply times_hit; [exact Tn|reflexivity]|]. rewrite Eu'. rewrite Eu in Ln. cbn [length] in Ln. lia.
      * exists (sent ++ N), rest', (S n). split; [rewrite Eo, Er; apply app_assoc|]. split; [exact Cd'|]. rewrite Eu, Ea. split; [rewrite with_recs_app, map_app; reflexivity|]. split; [apply times_hit; [exact Tn|reflexivity]|].
        rewrite Eu'. rewrite Eu in Ln. cbn [length] in *. assert (LN : rest = [] \/ (0 < length N)%nat) by (destruct rest; [auto|right; destruct N; [exfalso; apply Ne; [discriminate|reflexivity]|cbn [length]; lia]]).
        rewrite Er, app_length in Ln. destruct LN as [LN|LN]; [|lia]. rewrite Er in LN. destruct N; [|discriminate]. cbn [app length] in *. subst rest'. rewrite LN. cbn [length]. lia.
    + cbn [step] in E. injection E as <- <-. exists sent, rest, n. split; [exact Eo|]. split; [destruct Cd as [C1 C2 C3 C4 C5 C6 C7]; split; auto|]. split; [apply app_nil_r|]. split; [apply times_miss; [exact Tn|discriminate]|exact Ln].
    + cbn [step] in E. unfold mdnsd_in in E. rewrite (cl_down _ _ _ Cd) in E. cbn [bind] in E. injection E as <- <-. exists sent, rest, n. split; [exact Eo|]. split; [exact Cd|]. split; [apply app_nil_r|]. split; [apply times_miss; [exact Tn|discriminate]|exact Ln].
Qed.

Lemma shutdown_closes : forall d e d1 x, reach d -> legal d e OShutdown -> disco d = false -> step d e OShutdown = Ok (d1, x) ->
  closing d d1 (rev (concat (pub (R d)))) /\ uans (R d1) = uans (R d).
Proof.
  intros d e d1 x K [_ (S1 & S2 & S3)] Dc E. destruct (reach_dinv d K) as (qs & H & _).
  assert (Z : forall k, head (R d) k = None -> qs k = []) by (intros k Hk; symmetry; apply (queue_eq d qs k [] H); unfold queue_is; rewrite Hk; constructor).
  destruct (shutdown_recs_ok (R d) qs H (Z Probing S1) (Z Pause S3) (Z Publish S2)) as (s' & E' & H' & P1 & P2 & P3 & _ & _ & _ & _ & P8). cbn [step] in E. rewrite E' in E. cbn [bind] in E. injection E as <- _.
  split; [|exact P3]. split; try reflexivity; try assumption.
  - cbn [R with_shutdown with_R]. intros r Hr. rewrite <- in_rev, <- P1. apply (pk_live _ (ri_p _ _ H')). exact Hr.
  - cbn [R with_shutdown with_R]. intros r Y EY. specialize (P8 r). rewrite EY in P8. destruct (hp (R d) r) as [X|]; [|discriminate]. exists X. split; [reflexivity|].
    apply (f_equal (fun o => match o with Some y => (rr y, unique y) | None => (rr X, 0) end)) in P8. cbn [option_map] in P8. injection P8 as A B. split; assumption.
Qed.

Lemma shutdown_goodbyes : forall d e d1 x l d2, reach d -> legal d e OShutdown -> disco d = false -> step d e OShutdown = Ok (d1, x) ->
  (forall r X, record d r X -> 12 + rr_len (rr X) < frame d) ->
  history d1 l d2 -> (forall ev, In ev l -> ev_call ev = OOut \/ ev_call ev = OEndStep \/ exists m from, ev_call ev = OIn m from) ->
  exists L, NoDup (map fst L) /\ (forall r X, In (r, X) L <-> record d r X) /\
    (exists k, concat (map goodbyes l) = map (farewell (class d)) (firstn k L)) /\
    forall n, times calls_out n l -> (length (uans (R d)) + length L <= n)%nat -> concat (map goodbyes l) = map (farewell (class d)) L /\ (forall r, SpecLife.gone d2 r) /\
      forall e' d3 m k, legal d2 e' OOut -> step d2 e' OOut = Ok (d3, RMsg m k) -> k = 0 /\ o_calls m = [].
Proof.
  intros d e d1 x l d2 K Lg Dc E Fit Hh Ev. destruct (shutdown_closes d e d1 x K Lg Dc E) as [Cl Eu]. pose proof (reach_step _ _ _ _ _ K Lg E) as K1. destruct (reach_dinv d K) as (qs & H & _).
  set (order := rev (concat (pub (R d)))) in *. exists (with_recs (hp (R d)) order).
  assert (Lo : forall r, In r order -> hp (R d) r <> None) by (intros r I; apply (pk_live _ (ri_p _ _ H)); apply in_rev; exact I).
  destruct (closing_history d d1 order l d2 K1 Cl Fit Hh Ev) as (sent & rest & n & Eo & Cd & Eg & Tn & Ln).
  split; [rewrite with_recs_fst by exact Lo; apply NoDup_rev; apply (pk_nodup _ (ri_p _ _ H))|]. split.
  { intros r X. rewrite with_recs_in. split; [intros [_ EX]; exact EX|]. intros EX. split; [|exact EX]. apply -> in_rev. apply (pk_live _ (ri_p _ _ H)). unfold record in EX. congruence. }
  split.
  - exists (length (with_recs (hp (R d)) sent)). rewrite Eg, Eo, with_recs_app, firstn_app, Nat.sub_diag, firstn_all. cbn [firstn]. rewrite app_nil_r. reflexivity.
  - intros n' Tn' Le. assert (n' = n). { clear - Tn Tn'. revert n' Tn'. induction Tn as [|n l ev T IH P|n l ev T IH P]; intros n' T'; inversion T' as [A B|n1 l1 ev1 T1 P1 A B|n1 l1 ev1 T1 P1 A B]; try (destruct l; discriminate); try (destruct l1; discriminate); subst; try reflexivity;
      apply app_inj_tail in B as [-> ->]; try contradiction; auto. }
    subst n'. rewrite with_recs_len in Le by exact Lo. rewrite Eu in Ln. assert (rest = []) by (destruct rest; [reflexivity|cbn [length] in Ln; lia]). subst rest. rewrite app_nil_r in Eo. subst sent.
    split; [exact Eg|]. pose proof (history_reach _ _ _ K1 Hh) as K2. split.
    + intros r. eapply gone_of; [apply (cl_inv _ _ _ Cd)|]. destruct (hp (R d2) r) eqn:EX; [|reflexivity]. destruct (cl_live _ _ _ Cd r). congruence.
    + intros e' d3 m k Lg' E'. destruct (closing_out d d2 [] e' d3 m k K2 Cd Fit Lg' E') as [(u & us & Ex & _)|(_ & _ & N & rest & Er & _ & _ & _ & -> & Z)]; [rewrite Ex in Ln; cbn [length] in Ln; lia|].
      destruct N; [|discriminate]. split; [reflexivity|]. apply Z. reflexivity.
Qed.
