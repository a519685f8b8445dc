(* The life of a record: probes, announcements, goodbye. *)
From Verif Require Import Base Lemmas Hash HashProofs Wire Rec Qry Out In Api RecInv RecSafe RecOps RecAddr OutSafe OutPub OutProbe OutExtra QryInv QryOps CacheOps QryLoop OutAll OutSpec Shut DaemonInv SpecDaemon SpecLife FactsCalls FactsEvolve FactsItems FactsOut FactsFrame FactsDrain FactsFate FactsSize.

Lemma out_result : forall d e d' x, step d e OOut = Ok (d', x) -> exists m n, x = RMsg m n.
Proof. intros d e d' x E. cbn [step] in E. apply bind_ok in E as ([[d1 m] n] & _ & E). injection E as _ <-. eauto. Qed.

Lemma gone_of : forall d qs r, rinv (R d) qs -> hp (R d) r = None -> SpecLife.gone d r.
Proof.
  intros d qs r H E. split; [intros X EX; unfold record in EX; congruence|]. split; [|split].
  - intros I. apply (pk_live _ (ri_p _ _ H)) in I. contradiction.
  - intros q W. apply (waits_iff d qs q r H) in W. apply (queue_live _ _ _ _ H) in W. contradiction.
  - intros u I <-. exact (ri_ua _ _ H u I E).
Qed.

(* ------------------------------------------------------------------ *)
(* One call *)
Lemma event_cases : forall d e o d' x qs, reach d -> rinv (R d) qs -> legal d e o -> step d e o = Ok (d', x) -> exists qs', rinv (R d') qs' /\
  ((o = OOut /\ exists m n S B, x = RMsg m n /\ outcome d e qs d' m n qs' /\ fated d S B qs qs' d' /\ speaks d m S B /\ NoDup S /\ (forall y, In y S -> exists k, k <> Probing /\ In y (qs k))) \/
   (o = OClear /\ forall y, hp (R d') y = None) \/
   (o <> OOut /\ o <> OClear /\ onward (touches d o) (R d) qs (R d') qs')).
Proof.
  intros d e o d' x qs K H L E. destruct (reach_dinv d K) as (q0 & _ & C).
  assert (W : {o = OOut} + {o = OClear} + {o <> OOut /\ o <> OClear}) by (destruct o; auto; right; split; discriminate).
  destruct W as [[->| ->]|[N1 N2]].
  - destruct (out_result d e d' x E) as (m & n & ->). destruct (out_given d e d' m n qs H C L E) as (qs' & O & H'). exists qs'. split; [exact H'|]. left. split; [reflexivity|].
    destruct (out_fates d e qs d' m n qs' H O) as (S & B & F & Sp & N & _ & _ & _ & _ & _ & Qs). exists m, n, S, B. split; [reflexivity|]. auto.
  - cbn [step] in E. destruct (records_clear_ok (R d) qs H) as (s' & E1 & H' & Z & _). unfold on_recs in E. rewrite E1 in E. injection E as <- _. exists (fun _ => []). split; [exact H'|]. right. left. auto.
  - destruct (step_onward d e o d' x qs H C L N1 N2 E) as (qs' & H' & O). exists qs'. split; [exact H'|]. right. right. auto.
Qed.

(* ------------------------------------------------------------------ *)
(* What the message says about a record, and whether it was sent *)
Lemma shown_same : forall sec c X Y, shown sec c Y = shown sec c X -> shown SAn 0 Y = shown SAn 0 X.
Proof. intros sec c X Y E. unfold shown in *. injection E as E1 E2 E3 E4. congruence. Qed.

Lemma probed_says : forall d e m n d' S B r X, speaks d m S B -> record d r X -> In r B -> probes_for r (mkevent d e OOut (RMsg m n) d').
Proof.
  intros d e m n d' S B r X Sp EX I. destruct Sp as [_ _ _ ->|E _ _ -> _|U Q _ It|_ _ _ -> _]; try destruct I.
  exists m, n, X. cbn [ev_call ev_result ev_before]. unfold says. rewrite It. assert (J : In (r, X) (with_recs (hp (R d)) B)) by (apply with_recs_in; auto).
  repeat (split; auto); apply in_or_app; [left|right]; apply in_map_iff; exists (r, X); auto.
Qed.
Lemma says_probed : forall d e m n d' S B r, speaks d m S B -> singular d r -> probes_for r (mkevent d e OOut (RMsg m n) d') -> In r B.
Proof.
  intros d e m n d' S B r Sp Sg (m1 & n1 & X & _ & E & Q & EX & _ & I). cbn [ev_result ev_before] in E, Q, EX, I. injection E as <- <-. unfold says in I.
  destruct Sp as [_ Q' _ _|E' _ Q' _ _|U _ _ It|_ _ _ _ N]; try congruence; [|exfalso; exact (N _ I eq_refl)]. rewrite It in I. apply in_app_or in I as [I|I]; apply in_map_iff in I as ((y & Y) & E & I); [discriminate|].
  apply with_recs_in in I as [I EY]. destruct (Nat.eq_dec y r) as [->|D]; [exact I|]. exfalso. apply (Sg X y Y EX EY D). eapply shown_same. exact E.
Qed.
Lemma sent_says : forall d e m n d' S B r X, speaks d m S B -> record d r X -> In r S -> multicasts r (mkevent d e OOut (RMsg m n) d').
Proof.
  intros d e m n d' S B r X Sp EX I. destruct Sp as [_ _ -> _|E U Q _ It|_ _ -> _|_ _ -> _ _]; try destruct I.
  exists m, n, X. cbn [ev_call ev_result ev_before]. unfold says. rewrite It. repeat (split; auto). apply in_or_app. left. apply in_map_iff. exists (r, X). split; [reflexivity|]. apply with_recs_in. auto.
Qed.
Lemma says_sent : forall d e m n d' S B r, speaks d m S B -> singular d r -> multicasts r (mkevent d e OOut (RMsg m n) d') -> In r S.
Proof.
  intros d e m n d' S B r Sp Sg (m1 & n1 & X & _ & E & Q & U & EX & I). cbn [ev_result ev_before] in E, Q, U, EX, I. injection E as <- <-. unfold says in I.
  destruct Sp as [U' _ _ _|E' _ _ _ It|_ Q' _ _|_ Q' _ _ _]; try congruence. rewrite It in I. apply in_app_or in I as [I|I]; apply in_map_iff in I as ((y & Y) & E & I).
  - apply with_recs_in in I as [I EY]. destruct (Nat.eq_dec y r) as [->|D]; [exact I|]. exfalso. apply (Sg X y Y EX EY D). unfold as_answer in E. cbn [snd] in E. unfold shown in *. injection E as E1 E2 E3 E4 E5. congruence.
  - unfold as_extra, as_answer, shown in E. discriminate.
Qed.
Lemma speaks_apart : forall d m S B r, speaks d m S B -> In r S -> ~ In r B.
Proof. intros d m S B r Sp I. destruct Sp as [_ _ -> _|E _ _ -> _|_ _ -> _|_ _ -> _ _]; auto. Qed.

Lemma not_out_probes : forall r d e o x d', o <> OOut -> ~ probes_for r (mkevent d e o x d').
Proof. intros r d e o x d' N (m & n & X & E & _). cbn [ev_call] in E. contradiction. Qed.
Lemma not_out_multicasts : forall r d e o x d', o <> OOut -> ~ multicasts r (mkevent d e o x d').
Proof. intros r d e o x d' N (m & n & X & E & _). cbn [ev_call] in E. contradiction. Qed.

(* ------------------------------------------------------------------ *)
(* C30 *)
Definition probed_times (n : nat) (X : mrec) : Prop := (unique X = 1 + Z.of_nat n /\ (n <= 3)%nat) \/ (n = 3%nat /\ unique X = 5).

Lemma fate_probed : forall dsc S B qs qs' x X Y n, fate dsc S B qs qs' x X (Some Y) -> ~ (In x S /\ In x B) -> probed_times n X -> probed_times (if in_dec Nat.eq_dec x B then Datatypes.S n else n) Y.
Proof.
  intros dsc S B qs qs' x X Y n F Ap P. unfold probed_times in *.
  inversion F as [|Y' I T Qu (L1 & L2 & L3) O|Y' I T Qu L1 L2 L3 O|Y' I J Qu U L1 L2 L3 O|Y' I J Qu U L1 L2 L3 O|Y' I J Ds Qu (L1 & L2 & L3) O|Y' I J (L1 & L2 & L3) O]; subst Y'; destruct (in_dec Nat.eq_dec x B); try tauto; try lia.
Qed.

Lemma unique_made : forall d e h ty ttl cb d1 x, reach d -> legal d e (OUnique h ty ttl cb) -> step d e (OUnique h ty ttl cb) = Ok (d1, x) -> x = RRec (fresh (R d)) /\ exists Y, record d1 (fresh (R d)) Y /\ unique Y = 1.
Proof.
  intros d e h ty ttl cb d1 x K [_ L] E. destruct (reach_dinv d K) as (qs & H & _). cbn [step] in E. apply on_new_ok in E as (s & r0 & E1 & -> & ->).
  destruct (mdnsd_unique_inv (R d) qs (now d) h ty ttl cb H L) as (s' & E2 & _ & _ & (Y & EY & NY) & _). rewrite E2 in E1. injection E1 as <- <-. split; [reflexivity|]. exists Y. split; [exact EY|].
  apply (f_equal unique) in NY. exact NY.
Qed.

Lemma probes_counted : forall d1 l d r n0, reach d1 -> (r < fresh (R d1))%nat -> (n0 <= 3)%nat -> (forall X, record d1 r X -> probed_times n0 X) -> n0 = 0%nat ->
  history d1 l d -> (forall ev, In ev l -> singular (ev_before ev) r) ->
  (r < fresh (R d))%nat /\ (exists qs, rinv (R d) qs) /\ exists n, (n <= 3)%nat /\ times (probes_for r) n l /\ forall X, record d r X -> probed_times n X.
Proof.
  intros d1 l d r n0 K Lr Ln P0 -> Hh. induction Hh as [|l d e o x d' Hh IH Lg E]; intros Sg.
  - destruct (reach_dinv d1 K) as (qs & H & _). split; [exact Lr|]. split; [eauto|]. exists 0%nat. split; [lia|]. split; [constructor|exact P0].
  - destruct (IH (fun ev I => Sg ev (in_or_app _ _ _ (or_introl I)))) as (Lr' & (qs & H) & n & Hn & Tn & Pn). pose proof (history_reach _ _ _ K Hh) as Rd.
    assert (Sr : singular d r) by exact (Sg (mkevent d e o x d') ltac:(apply in_or_app; right; left; reflexivity)).
    split; [eapply Nat.lt_le_trans; [exact Lr'|apply (step_fresh d e o d' x Rd Lg E)]|].
    destruct (event_cases d e o d' x qs Rd H Lg E) as (qs' & H' & [(-> & m & k & S & B & -> & O & F & Sp & Nd & Qs)|[(-> & Z)|(N1 & N2 & O)]]); (split; [eauto|]).
    + destruct F as [F0 F]. destruct (in_dec Nat.eq_dec r B) as [I|I].
      * destruct (hp (R d) r) as [X|] eqn:EX; [|exists n; split; [exact Hn|]; split; [|intros X EX'; unfold record in EX'; rewrite (F0 r EX) in EX'; discriminate]].
        -- specialize (F r X EX). assert (Fi : exists Y, hp (R d') r = Some Y /\ unique X < 4).
           { inversion F as [I1 I2 I3 Q|Y I1 I2 I3 I4 I5 Q|Y I1 I2 I3 I4 I5 I6 I7 Q|Y I1 I2 I3 I4 I5 I6 I7 I8 Q|Y I1 I2 I3 I4 I5 I6 I7 I8 Q|Y I1 I2 I3 I4 I5 I6 Q|Y I1 I2 I3 I4 Q]; try contradiction;
               try (exfalso; exact (speaks_apart _ _ _ _ _ Sp I1 I)). eauto. }
           destruct Fi as (Y & EY & U). specialize (Pn X EX). rewrite EY in F. exists (Datatypes.S n). split; [unfold probed_times in Pn; lia|]. split.
           ++ apply times_hit; [exact Tn|]. eapply probed_says; eassumption.
           ++ intros Y' EY'. unfold record in EY'. rewrite EY in EY'. injection EY' as <-. assert (Fp := fate_probed _ _ _ _ _ _ _ _ n F (fun A => speaks_apart _ _ _ _ _ Sp (proj1 A) (proj2 A)) Pn).
              destruct (in_dec Nat.eq_dec r B); [exact Fp|contradiction].
        -- apply times_miss; [exact Tn|]. intros (m1 & n1 & X & _ & _ & _ & EX' & _). cbn [ev_before] in EX'. unfold record in EX'. congruence.
      * exists n. split; [exact Hn|]. split.
        -- apply times_miss; [exact Tn|]. intros Pf. apply I. eapply says_probed; eassumption.
        -- intros Y EY. unfold record in EY. destruct (hp (R d) r) as [X|] eqn:EX; [|rewrite (F0 r EX) in EY; discriminate]. specialize (F r X EX). rewrite EY in F.
           assert (Fp := fate_probed _ _ _ _ _ _ _ _ n F (fun A => speaks_apart _ _ _ _ _ Sp (proj1 A) (proj2 A)) (Pn X EX)). destruct (in_dec Nat.eq_dec r B); [contradiction|exact Fp].
    + exists n. split; [exact Hn|]. split; [apply times_miss; [exact Tn|apply not_out_probes; discriminate]|]. intros X EX. unfold record in EX. rewrite Z in EX. discriminate.
    + exists n. split; [exact Hn|]. split; [apply times_miss; [exact Tn|apply not_out_probes; exact N1]|]. intros Y EY. destruct O as [_ O]. specialize (O r Lr'). unfold record in EY. rewrite EY in O.
      destruct (hp (R d) r) as [X|] eqn:EX; [|destruct O]. pose proof (fo_unique _ _ _ _ _ _ O) as Un. specialize (Pn X EX). unfold probed_times in *. rewrite Un. exact Pn.
Qed.

Lemma history_split : forall d0 l1 ev l2 d, history d0 (l1 ++ ev :: l2) d -> history d0 l1 (ev_before ev) /\ legal (ev_before ev) (ev_env ev) (ev_call ev) /\ step (ev_before ev) (ev_env ev) (ev_call ev) = Ok (ev_after ev, ev_result ev).
Proof.
  intros d0 l1 ev l2 d Hh. remember (l1 ++ ev :: l2) as l eqn:El. revert l1 ev l2 El. induction Hh as [|l d e o x d' Hh IH Lg E]; intros l1 ev l2 El; [destruct l1; discriminate|].
  destruct l2 as [|b l2] using rev_ind.
  - assert (El' : l ++ [mkevent d e o x d'] = l1 ++ [ev]) by exact El. apply app_inj_tail in El' as [-> <-]. auto.
  - clear IHl2. rewrite app_comm_cons, app_assoc in El. apply app_inj_tail in El as [-> _]. eapply IH. reflexivity.
Qed.

Lemma three_probes : forall d e h ty ttl cb d1 r l d2, reach d -> legal d e (OUnique h ty ttl cb) -> step d e (OUnique h ty ttl cb) = Ok (d1, RRec r) ->
  history d1 l d2 -> (forall ev, In ev l -> singular (ev_before ev) r) ->
  (exists n, times (probes_for r) n l /\ (n <= 3)%nat) /\ forall l1 ev l2, l = l1 ++ ev :: l2 -> multicasts r ev -> times (probes_for r) 3 l1.
Proof.
  intros d e h ty ttl cb d1 r l d2 K Lg E Hh Sg. destruct (unique_made d e h ty ttl cb d1 _ K Lg E) as (Er & Y & EY & UY). injection Er as ->.
  pose proof (reach_step _ _ _ _ _ K Lg E) as K1.
  assert (Lr : (fresh (R d) < fresh (R d1))%nat) by (apply (step_fresh d e _ d1 _ K Lg E); reflexivity).
  assert (P0 : forall X, record d1 (fresh (R d)) X -> probed_times 0 X) by (intros X EX; unfold record in *; rewrite EY in EX; injection EX as <-; left; split; [exact UY|lia]).
  split.
  - destruct (probes_counted d1 l d2 _ 0 K1 Lr ltac:(lia) P0 eq_refl Hh Sg) as (_ & _ & n & Hn & Tn & _). eauto.
  - intros l1 ev l2 -> M. apply history_split in Hh as (H1 & Lg1 & E1). destruct (probes_counted d1 l1 _ _ 0 K1 Lr ltac:(lia) P0 eq_refl H1 (fun ev I => Sg ev (in_or_app _ _ _ (or_introl I)))) as (_ & (qs & H) & n & Hn & Tn & Pn).
    destruct ev as [da ea o x db]. cbn [ev_before ev_env ev_call ev_result ev_after] in *. pose proof (history_reach _ _ _ K1 H1) as Rd.
    destruct (event_cases da ea o db x qs Rd H Lg1 E1) as (qs' & H' & [(-> & m & k & S & B & -> & O & F & Sp & Nd & Qs)|[(-> & Z)|(N1 & N2 & O)]]).
    + assert (I : In (fresh (R d)) S) by (eapply says_sent; [exact Sp|apply (Sg (mkevent da ea OOut (RMsg m k) db)); apply in_or_app; right; left; reflexivity|exact M]).
      destruct (Qs _ I) as (q & Nq & Iq). destruct (hp (R da) (fresh (R d))) as [X|] eqn:EX; [|exfalso; exact (queue_live _ _ _ _ H Iq EX)].
      pose proof (queue_verified _ _ _ _ _ H Iq Nq EX) as Uv. specialize (Pn X EX). unfold probed_times in Pn. assert (n = 3)%nat by lia. subst n. exact Tn.
    + exfalso. eapply not_out_multicasts; [|exact M]. discriminate.
    + exfalso. eapply not_out_multicasts; [|exact M]. exact N1.
Qed.

(* Without looking at other records: at least three *)
Lemma probes_seen : forall d1 l d r, reach d1 -> (r < fresh (R d1))%nat -> (forall X, record d1 r X -> unique X = 1) -> history d1 l d ->
  (r < fresh (R d))%nat /\ (exists qs, rinv (R d) qs) /\ forall X, record d r X -> exists n, probed_times n X /\ SpecLife.seen (probes_for r) n l.
Proof.
  intros d1 l d r K Lr P0 Hh. induction Hh as [|l d e o x d' Hh IH Lg E].
  - destruct (reach_dinv d1 K) as (qs & H & _). split; [exact Lr|]. split; [eauto|]. intros X EX. exists 0%nat. split; [left; split; [apply P0; exact EX|lia]|constructor].
  - destruct IH as (Lr' & (qs & H) & Pn). pose proof (history_reach _ _ _ K Hh) as Rd.
    split; [eapply Nat.lt_le_trans; [exact Lr'|apply (step_fresh d e o d' x Rd Lg E)]|].
    destruct (event_cases d e o d' x qs Rd H Lg E) as (qs' & H' & [(-> & m & k & S & B & -> & O & F & Sp & Nd & Qs)|[(-> & Z)|(N1 & N2 & O)]]); (split; [eauto|]); intros Y EY; unfold record in EY.
    + destruct F as [F0 F]. destruct (hp (R d) r) as [X|] eqn:EX; [|rewrite (F0 r EX) in EY; discriminate]. specialize (F r X EX). rewrite EY in F. destruct (Pn X EX) as (n & Px & Sn).
      assert (Fp := fate_probed _ _ _ _ _ _ _ _ n F (fun A => speaks_apart _ _ _ _ _ Sp (proj1 A) (proj2 A)) Px). destruct (in_dec Nat.eq_dec r B) as [I|I].
      * exists (Datatypes.S n). split; [exact Fp|]. apply seen_hit; [exact Sn|]. eapply probed_says; eassumption.
      * exists n. split; [exact Fp|]. apply seen_skip. exact Sn.
    + rewrite Z in EY. discriminate.
    + destruct O as [_ O]. specialize (O r Lr'). rewrite EY in O. destruct (hp (R d) r) as [X|] eqn:EX; [|destruct O]. destruct (Pn X EX) as (n & Px & Sn). exists n. split; [|apply seen_skip; exact Sn].
      pose proof (fo_unique _ _ _ _ _ _ O) as Un. unfold probed_times in *. rewrite Un. exact Px.
Qed.
Lemma probed_first : forall d e h ty ttl cb d1 r l d2 q, reach d -> legal d e (OUnique h ty ttl cb) -> step d e (OUnique h ty ttl cb) = Ok (d1, RRec r) ->
  history d1 l d2 -> q <> Probing -> waits d2 q r -> SpecLife.seen (probes_for r) 3 l.
Proof.
  intros d e h ty ttl cb d1 r l d2 q K Lg E Hh Nq W. destruct (unique_made d e h ty ttl cb d1 _ K Lg E) as (Er & Y & EY & UY). injection Er as ->. pose proof (reach_step _ _ _ _ _ K Lg E) as K1.
  destruct (probes_seen d1 l d2 (fresh (R d)) K1) as (_ & (qs & H) & Pn).
  - apply (step_fresh d e _ d1 _ K Lg E). reflexivity.
  - intros X EX. unfold record in *. rewrite EY in EX. injection EX as <-. exact UY.
  - exact Hh.
  - apply (waits_iff d2 qs q _ H) in W. destruct (hp (R d2) (fresh (R d))) as [X|] eqn:EX; [|exfalso; exact (queue_live _ _ _ _ H W EX)]. pose proof (queue_verified _ _ _ _ _ H W Nq EX) as Uv.
    destruct (Pn X EX) as (n & Px & Sn). unfold probed_times in Px. assert (n = 3)%nat by lia. subst n. exact Sn.
Qed.

(* ------------------------------------------------------------------ *)
(* C32 *)
Definition announced_times (qs : queue -> list nat) (r n : nat) (X : mrec) : Prop := tries X = Z.of_nat n /\ (unique X = 0 \/ unique X = 5) /\ (In r (qs Publish) <-> (n < 4)%nat).

Lemma touches_updates : forall d o r, touches d o r <-> updates d o r.
Proof. intros d o r. destruct o; reflexivity. Qed.

Lemma set_announces : forall d e o d1 x r X, reach d -> legal d e o -> sets_raw o r -> step d e o = Ok (d1, x) -> record d r X -> ~ in_probing X ->
  exists qs, rinv (R d1) qs /\ (r < fresh (R d1))%nat /\ exists Y, record d1 r Y /\ announced_times qs r 0 Y.
Proof.
  intros d e o d1 x r X K [_ L] Sr E EX Np. destruct (reach_dinv d K) as (qs & H & _). pose proof (ur_range _ _ _ (ri_u _ _ H r X EX)) as Ur.
  assert (P : probes X = false) by (unfold in_probing in Np; unfold probes; lia).
  assert (G : forall f, keeps_id f -> on_recs d (mdnsd_set (R d) (now d) r f) = Ok (d1, x) -> exists qs, rinv (R d1) qs /\ (r < fresh (R d1))%nat /\ exists Y, record d1 r Y /\ announced_times qs r 0 Y).
  { intros f Kf E1. destruct (set_onward (eq r) (R d) qs (now d) r f X H Kf EX eq_refl) as (s' & qs' & Y & E' & H' & O' & _ & EY & _ & UY & T). destruct (T P) as [T1 T2]. unfold on_recs in E1. rewrite E' in E1. injection E1 as <- _.
    exists qs'. split; [exact H'|]. split; [eapply rinv_lt; eassumption|]. exists Y. split; [exact EY|]. split; [exact T1|]. split; [unfold in_probing in Np; lia|]. split; [intros _; lia|intros _; exact T2]. }
  destruct o; cbn [sets_raw] in Sr; try destruct Sr; cbn [step] in E.
  - eapply G; [apply keeps_raw|exact E].
  - eapply G; [apply keeps_host|exact E].
  - eapply G; [apply keeps_ip|exact E].
  - eapply G; [apply keeps_ip6|exact E].
  - eapply G; [apply keeps_srv|exact E].
Qed.

Lemma announcements_counted : forall d1 l d r qs1 X1, reach d1 -> rinv (R d1) qs1 -> (r < fresh (R d1))%nat -> record d1 r X1 -> announced_times qs1 r 0 X1 ->
  history d1 l d -> (forall ev, In ev l -> singular (ev_before ev) r /\ ~ updates (ev_before ev) (ev_call ev) r) ->
  (r < fresh (R d))%nat /\ exists qs n, rinv (R d) qs /\ (n <= 4)%nat /\ times (announces r) n l /\ forall X, record d r X -> announced_times qs r n X.
Proof.
  intros d1 l d r qs1 X1 K H1 Lr E1 P0 Hh. induction Hh as [|l d e o x d' Hh IH Lg E]; intros Sg.
  - split; [exact Lr|]. exists qs1, 0%nat. split; [exact H1|]. split; [lia|]. split; [constructor|]. intros X EX. unfold record in *. rewrite E1 in EX. injection EX as <-. exact P0.
  - destruct (IH (fun ev I => Sg ev (in_or_app _ _ _ (or_introl I)))) as (Lr' & qs & n & H & Hn & Tn & Pn). pose proof (history_reach _ _ _ K Hh) as Rd.
    destruct (Sg (mkevent d e o x d') ltac:(apply in_or_app; right; left; reflexivity)) as [Sr Up]. cbn [ev_before ev_call] in Sr, Up.
    split; [eapply Nat.lt_le_trans; [exact Lr'|apply (step_fresh d e o d' x Rd Lg E)]|].
    destruct (event_cases d e o d' x qs Rd H Lg E) as (qs' & H' & [(-> & m & k & S & B & -> & O & F & Sp & Nd & Qs)|[(-> & Z)|(N1 & N2 & O)]]); exists qs'.
    + destruct F as [F0 F]. destruct (hp (R d) r) as [X|] eqn:EX.
      2:{ exists n. split; [exact H'|]. split; [exact Hn|]. split; [apply times_miss; [exact Tn|]; intros [(m1 & n1 & X & _ & _ & _ & _ & EX' & _) _]; cbn [ev_before] in EX'; unfold record in EX'; congruence|].
          intros X EX'. unfold record in EX'. rewrite (F0 r EX) in EX'. discriminate. }
      specialize (F r X EX). destruct (Pn X EX) as (T & U & Q).
      assert (Ds : forall a b, In r (qs a) -> In r (qs b) -> a = b) by (intros a b; apply (queues_apart _ _ _ _ _ H)).
      assert (NP : ~ In r (qs Probing)) by (intros I; apply (ur_probing _ _ _ (ri_u _ _ H r X EX)) in I; lia).
      assert (Miss : ~ In r S -> ~ announces r (mkevent d e OOut (RMsg m k) d')) by (intros I [M _]; apply I; eapply says_sent; eassumption).
      assert (Miss' : ~ In r (qs Publish) -> ~ announces r (mkevent d e OOut (RMsg m k) d')) by (intros I [_ W]; apply I; apply (waits_iff d qs Publish r H); exact W).
      assert (Hit : In r S -> In r (qs Publish) -> announces r (mkevent d e OOut (RMsg m k) d')).
      { intros I J. split; [eapply sent_says; eassumption|]. cbn [ev_before]. apply (waits_iff d qs Publish r H). exact J. }
      remember (hp (R d') r) as V eqn:EV. destruct F as [I1 I2 I3|Y I1 I2 I3 (L1 & L2 & L3) I5|Y I1 I2 I3 I4 I5 I6 I7|Y I1 I2 I3|Y I1 I2 I3|Y I1 I2 I3 I4 (L1 & L2 & L3) I6|Y I1 I2 (L1 & L2 & L3) I4]; try contradiction.
      * destruct (in_dec Nat.eq_dec r (qs Publish)) as [J|J].
        -- exists (Datatypes.S n). split; [exact H'|]. apply Q in J as J'. split; [lia|]. split; [apply times_hit; auto|]. intros Y EY. unfold record in EY. rewrite EY in EV. discriminate.
        -- exists n. split; [exact H'|]. split; [exact Hn|]. split; [apply times_miss; auto|]. intros Y EY. unfold record in EY. rewrite EY in EV. discriminate.
      * exists n. split; [exact H'|]. split; [exact Hn|]. assert (J : ~ In r (qs Publish)) by (intros J; destruct I3 as [I3|I3]; pose proof (Ds _ _ I3 J); discriminate).
        split; [apply times_miss; auto|]. intros Y' EY. unfold record in EY. rewrite EY in EV. injection EV as ->. split; [congruence|]. split; [rewrite L2; exact U|]. rewrite <- Q. split; [intros A; destruct (I5 _ A)|contradiction].
      * exists (Datatypes.S n). apply Q in I3 as J'. split; [exact H'|]. split; [lia|]. split; [apply times_hit; auto|]. intros Y' EY. unfold record in EY. rewrite EY in EV. injection EV as ->. split; [lia|]. split; [rewrite I5; exact U|].
        rewrite I7. split; [intros [_ A]; lia|intros A; split; [reflexivity|lia]].
      * exists n. split; [exact H'|]. split; [exact Hn|]. assert (J : ~ In r (qs Publish)) by (intros J; destruct I4 as [I4|I4]; pose proof (Ds _ _ I4 J); discriminate).
        split; [apply times_miss; auto|]. intros Y' EY. unfold record in EY. rewrite EY in EV. injection EV as ->. split; [congruence|]. split; [rewrite L2; exact U|]. rewrite <- Q. split; [intros A; destruct (I6 _ A)|contradiction].
      * exists n. split; [exact H'|]. split; [exact Hn|]. split; [apply times_miss; auto|]. intros Y' EY. unfold record in EY. rewrite EY in EV. injection EV as ->. split; [congruence|]. split; [rewrite L2; exact U|]. rewrite I4. exact Q.
    + exists n. split; [exact H'|]. split; [exact Hn|]. split; [apply times_miss; [exact Tn|]; intros [M _]; eapply not_out_multicasts; [|exact M]; discriminate|]. intros X EX. unfold record in EX. rewrite Z in EX. discriminate.
    + exists n. split; [exact H'|]. split; [exact Hn|]. split; [apply times_miss; [exact Tn|]; intros [M _]; eapply not_out_multicasts; [|exact M]; exact N1|].
      intros Y EY. destruct O as [_ O]. specialize (O r Lr'). unfold record in EY. rewrite EY in O. destruct (hp (R d) r) as [X|] eqn:EX; [|destruct O]. destruct (Pn X EX) as (T & U & Q).
      assert (Nt : ~ touches d o r) by (rewrite touches_updates; exact Up). pose proof (fo_unique _ _ _ _ _ _ O) as Un. pose proof (fo_tries _ _ _ _ _ _ O Nt) as Tr. pose proof (fo_publish _ _ _ _ _ _ O) as Pu.
      split; [congruence|]. split; [rewrite Un; exact U|]. split; [|intros A; apply Pu, Q; exact A]. intros A. pose proof (ur_publish _ _ _ (ri_u _ _ H' r Y EY) A). lia.
Qed.

Lemma four_announcements : forall d e o d1 x r X l d2, reach d -> legal d e o -> sets_raw o r -> step d e o = Ok (d1, x) -> record d r X -> ~ in_probing X ->
  history d1 l d2 -> (forall ev, In ev l -> singular (ev_before ev) r /\ ~ updates (ev_before ev) (ev_call ev) r) ->
  exists n, times (announces r) n l /\ (n <= 4)%nat /\ forall Y, record d2 r Y -> (waits d2 Publish r <-> (n < 4)%nat).
Proof.
  intros d e o d1 x r X l d2 K Lg Sr E EX Np Hh Sg. destruct (set_announces d e o d1 x r X K Lg Sr E EX Np) as (qs1 & H1 & Lr & Y1 & EY1 & P1).
  destruct (announcements_counted d1 l d2 r qs1 Y1 (reach_step _ _ _ _ _ K Lg E) H1 Lr EY1 P1 Hh Sg) as (_ & qs & n & H & Hn & Tn & Pn).
  exists n. split; [exact Tn|]. split; [exact Hn|]. intros Y EY. destruct (Pn Y EY) as (_ & _ & Q). rewrite (waits_iff d2 qs Publish r H). exact Q.
Qed.

(* An announcement that is due is sent, or the message is full. *)
Lemma announcement_sent : forall d e d' m n r, reach d -> legal d e OOut -> step d e OOut = Ok (d', RMsg m n) -> is_shutdown d = false -> uans (R d) = [] ->
  (forall x, ~ waits d Probing x) -> waits d Publish r -> micros (t_publish (R d)) <= micros (e_now e) ->
  announces r (mkevent d e OOut (RMsg m n) d') \/ exists y Y, waits d Publish y /\ record d y Y /\ frame d <= packet_len (encode (o_calls m)) + rr_len (rr Y).
Proof.
  intros d e d' m n r K Lg E Sd Eu NP W Tm. destruct (reach_dinv d K) as (qs & H & C). destruct (out_given d e d' m n qs H C Lg E) as (qs' & O & H').
  assert (Pr : qs Probing = []).
  { destruct (qs Probing) as [|y t] eqn:Q; [reflexivity|]. exfalso. apply (NP y). apply (waits_iff d qs Probing y H). rewrite Q. left. reflexivity. }
  assert (Ir : In r (qs Publish)) by (apply (waits_iff d qs Publish r H); exact W).
  assert (Ad : announce_due (R d) qs (e_now e) = true).
  { unfold announce_due. rewrite Pr. destruct (qs Publish); [destruct Ir|]. unfold tvdiff, micros in *. lia. }
  assert (Full : forall a rest c, blocked (hp (R d)) (frame d) a rest -> In r rest -> (exists t, qs Publish = t ++ rest) -> a ++ c = o_calls m -> exists y Y, waits d Publish y /\ record d y Y /\ frame d <= packet_len (encode (o_calls m)) + rr_len (rr Y)).
  { intros a rest c B I (t & Q) Em. destruct rest as [|y rest]; [destruct I|]. destruct B as (Y & EY & B). exists y, Y. split; [|split; [exact EY|]].
    - apply (waits_iff d qs Publish y H). rewrite Q. apply in_or_app. right. left. reflexivity.
    - pose proof (mlen_app a c) as L. rewrite Em in L. unfold mlen in *. lia. }
  destruct (hp (R d) r) as [X|] eqn:EX; [|exfalso; exact (queue_live _ _ _ _ H Ir EX)].
  destruct O as [u us X0 added Eu' EX0 G|N restN P restP s' Eu' Sd' E1 E2 Dp A Ua Cf Bl|N restN P restP A restA s' added all seen Eu' Sd' D Eall Nall Eseen Af Ua Tp Tb Cf Tq G|N restN A restA s' l Eu' Sd' D E1 E2 El La Af Ua Cf Tp Tb Tq|N restN A restA s' q1 q' l m ret T V Eu' Sd' D E1 E2 El La Af Ua Cf Tp Tb Tq QO Ql Sh Zq Uq CK TO G]; try congruence.
  - destruct D as [D1 D2 D3 _ _ _ D7 _]. specialize (D7 Ad). rewrite D2 in Ir. apply in_app_or in Ir as [Ir|Ir].
    + left. split; [|exact W]. exists (mkomsg (mcast (d_family d)) 0 true (calls_of (class d) (hp (R d)) all ++ extras (class d) (hp s') added)), (zlen all), X.
      cbn [ev_call ev_result ev_before o_qr]. repeat (split; auto). unfold says. cbn [o_calls]. rewrite items_response. apply in_or_app. left. apply in_flat_map. exists r. split.
      * rewrite Eall, !in_app_iff. auto.
      * unfold at_rec. rewrite EX. left. symmetry. apply shown_as_answer.
    + right. cbn [o_calls]. subst all. eapply (Full _ _ (calls_of (class d) (hp (R d)) (sent_of (disco d) (hp (R d)) A) ++ extras (class d) (hp s') added)); [exact D7|exact Ir|eauto|]. cbn [o_calls].
      rewrite !calls_of_app, <- !app_assoc. reflexivity.
  - destruct D as [D1 D2 D3 _ _ _ D7 _]. specialize (D7 Ad). right. eapply Full; [exact D7|exact Ir|exists []; reflexivity|]. rewrite E1. cbn [app calls_of flat_map]. reflexivity.
  - destruct D as [D1 D2 D3 _ _ _ D7 _]. specialize (D7 Ad). right. eapply Full; [exact D7|exact Ir|exists []; reflexivity|]. rewrite E1. cbn [app calls_of flat_map]. reflexivity.
Qed.
