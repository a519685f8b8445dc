(* Supporting proofs for PropMquery.v: sending comes to an end. *)
From Verif Require Import Base Lemmas Hash HashProofs XhtProofs Wire Rec Qry Out In Api Reent SpecDaemon SpecCache SpecReent RecInv RecSafe RecOps OutSafe QryInv QryOps CacheOps QryReg QryLoop InSafe InLoop InResp OutSpec DaemonInv FactsSleep ReentFacts ReentSafe ReentRuns ReentAsk Step SpecStep Mquery SpecMquery FactsMq3.

(* A query to ask, or to rest *)
Definition pressing (t : Z) (x : query) : Prop := 0 < q_next x <= t.
(* Those that are due were never asked *)
Definition unasked (t : Z) (s : qrys) : Prop := forall q x, qh s q = Some x -> pressing t x -> q_tries x = 0.
Definition relaxed (t : Z) (s : qrys) : Prop := forall q x, qh s q = Some x -> ~ pressing t x.

Lemma unasked_moves : forall t s s', unasked t s -> moves t s s' -> unasked t s'.
Proof.
  intros t s s' U [M _] q y E Py. destruct (M q y E) as [(x & Ex & K1 & K2 & K3 & K4)|(K & _)]; [|exact K]. rewrite K4. apply (U q x Ex). unfold pressing in *. lia.
Qed.

Section Loop.
Context {A : Type} (beh : behaviour A) (Ia : A -> Prop) (P : answer -> Prop).
Hypothesis Pttl : forall x t, P x -> P (set_ttl x t).
Hypothesis Hb : forall a k x, Ia a -> P x -> exists a' l rm, beh a k x = Ok (a', l, rm) /\ Ia a' /\
  (rm = true -> Forall registers l) /\ (true = true -> rm = false /\ Forall registers l).

Lemma loop_unasked : forall rest n pre s a t frm cls m best ret s' a' m' best' ret', sound Ia P s a -> 0 <= t -> qlist s = pre ++ rest -> (length rest < n)%nat ->
  (forall q x, qh s q = Some x -> pressing t x -> In q rest \/ q_tries x = 0) ->
  query_loop_re beh n s a t frm cls (hd_error rest) m best ret = Ok (s', a', m', best', ret') -> unasked t s'.
Proof.
  induction rest as [|i rest IH]; intros n pre s a t frm cls m best ret s' a' m' best' ret' So N El Ln J E; destruct n as [|n]; try (cbn [length] in Ln; lia); cbn [hd_error query_loop_re] in E.
  - injection E as <- <- <- <- <-. intros q x Ex Px. destruct (J q x Ex Px) as [[]|K]; exact K.
  - pose proof (so_inv _ _ _ _ So) as H. assert (Li : In i (qlist s)) by (rewrite El; apply in_or_app; right; left; reflexivity).
    destruct (qh s i) as [x|] eqn:Ex; [|apply (qi_live _ H) in Li; contradiction]. rewrite (qget_some _ _ _ Ex) in E. cbn [bind] in E.
    assert (LK : forall s' p, qinv s' -> qlist s' = p ++ pre ++ i :: rest -> qh s' i <> None -> q_link s' i = Ok (hd_error rest)).
    { intros s2 p H' E2 K. unfold q_link. destruct (qh s2 i) as [y|] eqn:Ey; [|congruence]. rewrite (qget_some _ _ _ Ey). cbn [bind].
      pose proof (qi_nodup _ H') as ND. rewrite E2, app_assoc in *. pose proof (NoDup_remove_2 _ _ _ ND) as Ni. rewrite in_app_iff in Ni. rewrite tail_after_mid by tauto. reflexivity. }
    assert (TL : (length rest < n)%nat) by (cbn [length] in Ln; lia).
    destruct (so_num _ _ _ _ So i x Ex) as [Nt Nn].
    destruct ((q_next x =? 0) || (t <? q_next x)) eqn:C1.
    + rewrite (LK s [] H El) in E by congruence. cbn [bind] in E. eapply (IH n (pre ++ [i])); [exact So|exact N| |exact TL| |exact E].
      * rewrite <- app_assoc. exact El.
      * intros q y Ey Py. destruct (J q y Ey Py) as [[->|I]|K]; [|auto|auto]. exfalso. replace y with x in * by congruence. unfold pressing in Py. lia.
    + destruct (q_tries x =? 3) eqn:C2.
      * destruct (c_expire_sound beh Ia P true Pttl Hb s a t (cbucket (q_nm x)) So ltac:(lia) (cbucket_lt _)) as (s1 & a1 & E1 & So1 & T1 & G1). rewrite E1 in E. cbn [bind] in E.
        pose proof (moves_c_expire beh _ _ _ _ _ _ E1) as [Mo _].
        destruct (G1 eq_refl) as [Gq (p & Gl)]. destruct (Gq i x Ex) as (y & Ey & Ny & Yy & _).
        unfold q_reset in E. rewrite (qget_some _ _ _ Ey) in E. cbn [bind] in E. cbv zeta in E. set (tt := reset_try _ _ _) in E.
        set (s2 := qset s1 i (set_qnext y tt 0)) in E. pose proof So1 as [H1 N1 P1 D1 I1].
        assert (H2 : qinv s2) by (eapply qset_inv; [exact H1|exact Ey|reflexivity|reflexivity]).
        set (s3 := if negb (tt =? 0) && (tt <? checkq s2) then set_checkq s2 tt else s2) in E.
        assert (H3 : qinv s3) by (unfold s3; destruct (_ && _); [apply set_checkq_inv|]; exact H2).
        assert (F3 : qh s3 = qh s2 /\ qlist s3 = qlist s1 /\ cache s3 = cache s1 /\ told s3 = told s1) by (unfold s3; destruct (_ && _); repeat split).
        destruct F3 as (F1 & F2 & F3 & F4).
        assert (So3 : sound Ia P s3 a1).
        { split; auto.
          - intros q z Ez. rewrite F1 in Ez. cbn [s2 qset set_qh qh] in Ez. destruct (Nat.eqb_spec q i) as [->|D]; [|exact (N1 q z Ez)].
            injection Ez as <-. cbn [set_qnext q_tries q_next]. split; [lia|]. apply reset_try_pos. intros c Ic. exact (P1 _ c Ic).
          - intros j c. unfold centries. rewrite F3. exact (P1 j c).
          - intros j c. unfold centries. rewrite F3. exact (D1 j c). }
        rewrite (LK s3 p H3) in E.
        2:{ rewrite F2, Gl, El. reflexivity. }
        2:{ rewrite F1. cbn [s2 qset set_qh qh]. rewrite Nat.eqb_refl. discriminate. }
        cbn [bind] in E. eapply (IH n (p ++ pre ++ [i]) s3 a1); [exact So3|exact N| |exact TL| |exact E].
        { rewrite F2, Gl, El, <- !app_assoc. reflexivity. }
        intros q z Ez Pz. rewrite F1 in Ez. cbn [s2 qset set_qh qh] in Ez. destruct (Nat.eqb_spec q i) as [->|D]; [injection Ez as <-; right; reflexivity|].
        destruct (Mo q z Ez) as [(w & Ew & _ & _ & K3 & K4)|(K & _)]; [|auto]. destruct (J q w Ew) as [[->|I]|K]; [unfold pressing in *; lia|congruence|auto|right; congruence].
      * cbv zeta in E. set (s1 := qset s i (set_qnext x (t + (q_tries x + 1)) (q_tries x + 1))) in E. pose proof So as [_ Hn Hc Hd I].
        assert (H1 : qinv s1) by (eapply qset_inv; [exact H|exact Ex|reflexivity|reflexivity]).
        rewrite (LK s1 [] H1 El) in E. 2:{ cbn [s1 qset set_qh qh]. rewrite Nat.eqb_refl. discriminate. }
        cbn [bind] in E. eapply (IH n (pre ++ [i]) s1 a); [|exact N| |exact TL| |exact E].
        { split; auto. intros q z Ez. cbn [s1 qset set_qh qh] in Ez. destruct (Nat.eqb_spec q i) as [->|D]; [|exact (Hn q z Ez)].
          injection Ez as <-. cbn [set_qnext q_tries q_next]. lia. }
        { rewrite <- app_assoc. exact El. }
        { intros q y Ey Py. cbn [s1 qset set_qh qh] in Ey. destruct (Nat.eqb_spec q i) as [->|D].
          - exfalso. injection Ey as <-. unfold pressing in Py. cbn [set_qnext q_next] in Py. lia.
          - destruct (J q y Ey Py) as [[->|Iq]|L]; [congruence|auto|auto]. }
Qed.

Lemma loop_relaxed : forall rest n pre s a t frm cls m best ret s' a' m' best' ret', sound Ia P s a -> 0 <= t -> qlist s = pre ++ rest -> (length rest < n)%nat ->
  (forall q x, qh s q = Some x -> pressing t x -> In q rest /\ q_tries x = 0) ->
  query_loop_re beh n s a t frm cls (hd_error rest) m best ret = Ok (s', a', m', best', ret') -> relaxed t s' /\ (relaxed t s -> ret' = ret).
Proof.
  induction rest as [|i rest IH]; intros n pre s a t frm cls m best ret s' a' m' best' ret' So N El Ln J E; destruct n as [|n]; try (cbn [length] in Ln; lia); cbn [hd_error query_loop_re] in E.
  - injection E as <- <- <- <- <-. split; [|reflexivity]. intros q x Ex Px. destruct (J q x Ex Px) as [[] _].
  - pose proof (so_inv _ _ _ _ So) as H. assert (Li : In i (qlist s)) by (rewrite El; apply in_or_app; right; left; reflexivity).
    destruct (qh s i) as [x|] eqn:Ex; [|apply (qi_live _ H) in Li; contradiction]. rewrite (qget_some _ _ _ Ex) in E. cbn [bind] in E.
    assert (LK : forall s' p, qinv s' -> qlist s' = p ++ pre ++ i :: rest -> qh s' i <> None -> q_link s' i = Ok (hd_error rest)).
    { intros s2 p H' E2 K. unfold q_link. destruct (qh s2 i) as [y|] eqn:Ey; [|congruence]. rewrite (qget_some _ _ _ Ey). cbn [bind].
      pose proof (qi_nodup _ H') as ND. rewrite E2, app_assoc in *. pose proof (NoDup_remove_2 _ _ _ ND) as Ni. rewrite in_app_iff in Ni. rewrite tail_after_mid by tauto. reflexivity. }
    assert (TL : (length rest < n)%nat) by (cbn [length] in Ln; lia).
    destruct (so_num _ _ _ _ So i x Ex) as [Nt Nn].
    destruct ((q_next x =? 0) || (t <? q_next x)) eqn:C1.
    + rewrite (LK s [] H El) in E by congruence. cbn [bind] in E. eapply (IH n (pre ++ [i])); [exact So|exact N| |exact TL| |exact E].
      * rewrite <- app_assoc. exact El.
      * intros q y Ey Py. destruct (J q y Ey Py) as [[->|I] K]; [|auto]. exfalso. replace y with x in * by congruence. unfold pressing in Py. lia.
    + assert (Px : pressing t x) by (unfold pressing; lia). destruct (J i x Ex Px) as [_ T0]. rewrite T0 in E. change (0 =? 3) with false in E. cbv iota zeta in E.
      set (s1 := qset s i (set_qnext x (t + (0 + 1)) (0 + 1))) in E. pose proof So as [_ Hn Hc Hd I].
      assert (H1 : qinv s1) by (eapply qset_inv; [exact H|exact Ex|reflexivity|reflexivity]).
      rewrite (LK s1 [] H1 El) in E. 2:{ cbn [s1 qset set_qh qh]. rewrite Nat.eqb_refl. discriminate. }
      cbn [bind] in E. split.
      * refine (proj1 (IH n (pre ++ [i]) s1 a _ _ _ _ _ _ _ _ _ _ _ _ N _ TL _ E)).
        { split; auto. intros q z Ez. cbn [s1 qset set_qh qh] in Ez. destruct (Nat.eqb_spec q i) as [->|D]; [|exact (Hn q z Ez)].
          injection Ez as <-. cbn [set_qnext q_tries q_next]. lia. }
        { rewrite <- app_assoc. exact El. }
        { intros q y Ey Py. cbn [s1 qset set_qh qh] in Ey. destruct (Nat.eqb_spec q i) as [->|D].
          - exfalso. injection Ey as <-. unfold pressing in Py. cbn [set_qnext q_next] in Py. lia.
          - destruct (J q y Ey Py) as [[->|Iq] L]; [congruence|auto]. }
      * intros Rx. destruct (Rx i x Ex Px).
Qed.

Lemma fuel_enough : forall s, qinv s -> (length (qlist s) < S (qfresh s))%nat.
Proof. intros s H. apply Nat.lt_succ_r. apply (nodup_le (qfresh s) (qlist s) (qi_nodup _ H)). intros q I. apply (qi_fresh _ H). apply (qi_live _ H). exact I. Qed.

Lemma out_query_unasked : forall s a t frm cls m s' a' m' ret, sound Ia P s a -> 0 <= t -> out_query_re beh s a t frm cls m = Ok (s', a', m', ret) -> ret = 0 \/ unasked t s'.
Proof.
  intros s a t frm cls m s' a' m' ret So N E. unfold out_query_re in E. destruct (negb (checkq s =? 0) && (checkq s <=? t)); [|injection E as _ _ _ <-; auto].
  pose proof (so_inv _ _ _ _ So) as H. rewrite query_ask_spec in E by (intros q I; apply (qi_live _ H); exact I). cbn [bind] in E.
  destruct (query_loop_re _ _ _ _ _ _ _ _ _ _ _) as [[[[[s1 a1] m1] b1] r1]| | |] eqn:El; cbn [bind] in E; try discriminate. injection E as <- <- <- <-. right.
  eapply (loop_unasked (qlist s) _ []) in El; [exact El|exact So|exact N|reflexivity|apply fuel_enough; exact H|]. intros q x Ex _. left. apply (qi_live _ H). congruence.
Qed.
Lemma out_query_relaxed : forall s a t frm cls m s' a' m' ret, sound Ia P s a -> 0 <= t -> unasked t s -> out_query_re beh s a t frm cls m = Ok (s', a', m', ret) ->
  (ret = 0 \/ relaxed t s') /\ (relaxed t s -> ret = 0).
Proof.
  intros s a t frm cls m s' a' m' ret So N U E. unfold out_query_re in E. destruct (negb (checkq s =? 0) && (checkq s <=? t)); [|injection E as _ _ _ <-; auto].
  pose proof (so_inv _ _ _ _ So) as H. rewrite query_ask_spec in E by (intros q I; apply (qi_live _ H); exact I). cbn [bind] in E.
  destruct (query_loop_re _ _ _ _ _ _ _ _ _ _ _) as [[[[[s1 a1] m1] b1] r1]| | |] eqn:El; cbn [bind] in E; try discriminate. injection E as <- <- <- <-.
  eapply (loop_relaxed (qlist s) _ []) in El; [|exact So|exact N|reflexivity|apply fuel_enough; exact H|].
  - destruct El as [L1 L2]. split; [right; exact L1|exact L2].
  - intros q x Ex Px. split; [apply (qi_live _ H); congruence|apply (U q x Ex Px)].
Qed.
End Loop.

(* ------------------------------------------------------------------ *)
(* A daemon without records *)
Record bare_recs (s : recs) : Prop := mkbare { br_pub : pub s = repeat [] (Z.to_nat SPRIME); br_uans : uans s = []; br_head : forall k, head s k = None }.
Definition bare (d : daemon) : Prop := bare_recs (R d) /\ is_shutdown d = false.
Lemma bare_quiet : forall d qs, rinv (R d) qs -> bare d -> nothing_waits d.
Proof.
  intros d qs H [B1 B2]. split; [apply (br_uans _ B1)|]. split; [|exact B2]. intros k r K. revert K. apply (no_waits d qs k H).
  pose proof (qk_chain _ _ (ri_q _ _ H) k) as Ck. rewrite (br_head _ B1) in Ck. destruct (qs k) as [|y l]; [reflexivity|]. exfalso. apply OutProbe.chain_hd in Ck. discriminate.
Qed.
Lemma bare_next : forall s n ty, bare_recs s -> r_next s None n ty = Ok None.
Proof. intros s n ty B. cbn [r_next]. unfold chain_of. rewrite (br_pub _ B), nth_repeat. reflexivity. Qed.
Lemma bare_questions : forall e from id an qd d did d', bare d -> questions d e from did id qd an = Ok d' -> d' = d.
Proof.
  intros e from id an qd. induction qd as [|q qd IH]; intros d did d' B E; cbn [questions] in E; [congruence|]. destruct (negb _); [eapply IH; eassumption|].
  rewrite bare_next in E by apply B. cbn [bind] in E. eapply IH; eassumption.
Qed.
Lemma bare_responses : forall A (beh : behaviour A) e from an d a did d' a', bare d -> responses_re beh d a e from did an = Ok (d', a') -> bare d'.
Proof.
  intros A beh e from an. induction an as [|r an IH]; intros d a did d' a' B E; cbn [responses_re] in E; [injection E as <- _; exact B|].
  unfold contest in E. rewrite bare_next in E by apply B. cbn [bind] in E. cbv zeta iota in E. destruct (cache_re _ _ _ _ _ _ _) as [[q a1]| | |]; cbn [bind] in E; try discriminate.
  eapply IH; [|exact E]. destruct B as [B1 B2]. destruct (has_recv d); split; cbn [with_Q add_received R is_shutdown]; assumption.
Qed.
Lemma bare_local : forall d e from, bare d -> bare (fst (is_local d e from)).
Proof.
  intros d e from B. assert (F : bare (refresh d e false)).
  { destruct B as [B1 B2]. unfold refresh. destruct (_ && _); [split; assumption|]. destruct (e_ifs e); split; assumption. }
  unfold is_local. destruct (family from =? AF_INET6); (destruct (bytes_eqb _ _); [exact B|exact F]).
Qed.
Lemma bare_in : forall A (beh : behaviour A) d a e m from d' a' n, bare d -> in_re beh d a e m from = Ok (d', a', n) -> bare d'.
Proof.
  intros A beh d a e m from d' a' n B E. unfold in_re in E. rewrite (proj2 B) in E. cbv zeta in E. pose proof (bare_local (with_now d (e_now e)) e from B) as L.
  destruct (is_local _ _ _) as [d1 l]. cbn [fst] in L. destruct l; [injection E as <- _ _; exact L|]. destruct (h_qr (m_header m) =? 0).
  - destruct (questions _ _ _ _ _ _ _) as [d2| | |] eqn:E2; cbn [bind] in E; try discriminate. injection E as <- _ _. apply bare_questions in E2; [|exact L]. subst d2. exact L.
  - destruct (responses_re _ _ _ _ _ _ _) as [[d2 a2]| | |] eqn:E2; cbn [bind] in E; try discriminate. injection E as <- _ _. eapply bare_responses; eassumption.
Qed.
Lemma bare_heads : forall s t n x, republish s t (repeat [] n) x = Ok (s, x).
Proof. intros s t n x. induction n as [|n IH]; [reflexivity|]. cbn [repeat republish]. exact IH. Qed.
Lemma bare_sleep : forall d e d' t, bare d -> mdnsd_sleep d e = Ok (d', t) -> bare d'.
Proof.
  intros d e d' t B E. unfold mdnsd_sleep in E. destruct B as [B1 B2]. pose proof (br_head _ B1) as Hd. rewrite (br_uans _ B1) in E. change (a_now (R d)) with (head (R d) Now) in E. rewrite Hd in E. cbv zeta in E. cbn [with_now R Q now expireall] in E.
  change (a_pause (R d)) with (head (R d) Pause) in E. change (probing (R d)) with (head (R d) Probing) in E. change (a_publish (R d)) with (head (R d) Publish) in E. rewrite !Hd in E.
  destruct (negb _); [injection E as <- _; split; assumption|]. destruct (_ <? 0) in E; [injection E as <- _; split; assumption|]. rewrite (br_pub _ B1), bare_heads in E. cbn [bind] in E. injection E as <- _. split; [|exact B2].
  destruct B1 as [P1 P2 P3]. split; [exact P1|exact P2|]. intros k. specialize (P3 k). destruct k; exact P3.
Qed.

Section Send.
Context {A : Type} (beh : behaviour A) (a0 : A).
Hypothesis Had : adding beh (fun _ => True).
Notation ok d a := (runs beh (fun _ => True) a0 d a).

Lemma ok_sound : forall d a, ok d a -> exists qs, dsound (fun _ => True) named d a qs.
Proof. intros d a K. destruct (runs_sound A beh (fun _ => True) a0 (adding_orderly A beh (fun _ => True) Had) Logic.I d a K) as [D _]. exact D. Qed.

(* mdnsd_out when there are no records *)
Lemma bare_out : forall d a e d' a' m n, ok d a -> bare d -> 0 <= fst (e_now e) -> out_re beh d a e = Ok (d', a', m, n) ->
  let t := fst (e_now e) in
  bare d' /\ (n = 0 \/ unasked t (Q d')) /\ t <= expireall d' /\
  (unasked t (Q d) -> t <= expireall d -> (n = 0 \/ relaxed t (Q d')) /\ (relaxed t (Q d) -> n = 0)).
Proof.
  intros d a e d' a' m n K B T E. cbv zeta. destruct (ok_sound d a K) as (qs & D). pose proof (bare_quiet d qs (ds_r _ _ _ _ _ D) B) as W. unfold out_re in E. rewrite (quiet_first d e qs (ds_r _ _ _ _ _ D) W) in E. cbn [bind] in E. cbv zeta in E.
  cbn [with_now Q frame class expireall d_family] in E. set (t := fst (e_now e)) in *.
  destruct (out_query_re _ _ _ _ _ _ _) as [[[[q a1] m1] ret]| | |] eqn:E2; cbn [bind] in E; try discriminate.
  pose proof (out_query_unasked beh (fun _ => True) named named_ttl (adding_hyp A beh _ Had) _ _ _ _ _ _ _ _ _ _ (ds_q _ _ _ _ _ D) T E2) as U.
  pose proof (fun Ua => out_query_relaxed beh (fun _ => True) named named_ttl (adding_hyp A beh _ Had) (Q d) a t (frame d) (class d) [] q a1 m1 ret (ds_q _ _ _ _ _ D) T Ua E2) as Rx.
  destruct B as [B1 B2]. destruct (expireall d <? t) eqn:Ex.
  - destruct (gc_re _ _ _ _ _) as [[q2 a2]| | |] eqn:E3; cbn [bind] in E; try discriminate. injection E as <- <- _ <-. split; [split; assumption|]. cbn [with_expireall with_Q Q expireall].
    split; [destruct U as [U|U]; [auto|right; eapply unasked_moves; [exact U|eapply moves_gc; exact E3]]|]. split; [unfold GC; lia|]. intros _ L. lia.
  - injection E as <- <- _ <-. split; [split; assumption|]. cbn [with_Q with_now Q expireall]. split; [exact U|]. split; [lia|]. intros Ua _. apply Rx. exact Ua.
Qed.

Lemma send_ends : forall t x y z l d a, ok d a -> bare d -> 0 <= t -> within t [x; y; z] ->
  match mq_send beh d a (x :: y :: z :: l) with Hang => False | Ok (_, _, ps, _) => (length ps <= 2)%nat | _ => True end.
Proof.
  intros t [e1 s1] [e2 s2] [e3 s3] l d a K B T W. assert (W1 := W e1 s1 ltac:(left; reflexivity)). assert (W2 := W e2 s2 ltac:(right; left; reflexivity)). assert (W3 := W e3 s3 ltac:(right; right; left; reflexivity)). cbn [mq_send].
  destruct (out_ok A beh (fun _ => True) a0 Had Logic.I d a e1 K ltac:(lia)) as (d1 & a1 & m1 & n1 & E1 & K1). rewrite E1. cbn [bind]. destruct (bare_out d a e1 d1 a1 m1 n1 K B ltac:(lia) E1) as (B1 & U1 & X1 & _). rewrite W1 in *.
  destruct (Z.eqb_spec n1 0) as [_|N1]; [apply Nat.le_0_l|]. destruct U1 as [U1|U1]; [contradiction|]. destruct (e_ovf _); [exact Logic.I|]. destruct s1; [|cbn [length]; lia].
  destruct (out_ok A beh (fun _ => True) a0 Had Logic.I d1 a1 e2 K1 ltac:(lia)) as (d2 & a2 & m2 & n2 & E2 & K2). rewrite E2. cbn [bind]. destruct (bare_out d1 a1 e2 d2 a2 m2 n2 K1 B1 ltac:(lia) E2) as (B2 & U2 & X2 & R2). rewrite W2 in *.
  destruct (Z.eqb_spec n2 0) as [_|N2]; [cbn [bind length]; lia|]. destruct U2 as [U2|U2]; [contradiction|]. destruct (R2 U1 X1) as [[R3|R3] _]; [contradiction|]. destruct (e_ovf _); [exact Logic.I|]. destruct s2; [|cbn [bind length]; lia].
  destruct (out_ok A beh (fun _ => True) a0 Had Logic.I d2 a2 e3 K2 ltac:(lia)) as (d3 & a3 & m3 & n3 & E3 & K3). rewrite E3. cbn [bind]. destruct (bare_out d2 a2 e3 d3 a3 m3 n3 K2 B2 ltac:(lia) E3) as (_ & _ & _ & R4). rewrite W3 in *.
  destruct (R4 U2 X2) as [_ R5]. rewrite (R5 R3). change (0 =? 0) with true. cbv iota. cbn [bind length]. lia.
Qed.
Lemma send_steady : forall l1 x y z l2 d a, ok d a -> bare d -> timed (l1 ++ x :: y :: z :: l2) -> (exists t, within t [x; y; z]) -> mq_send beh d a (l1 ++ x :: y :: z :: l2) <> Hang.
Proof.
  intros l1 x y z l2. induction l1 as [|[e s] l1 IH]; intros d a K B T (t & W).
  - cbn [app] in *. assert (T0 : 0 <= t) by (destruct x as [e b]; rewrite <- (W e b) by (left; reflexivity); apply (T e b); left; reflexivity). pose proof (send_ends t x y z l2 d a K B T0 W) as H. destruct (mq_send _ _ _ _); try discriminate. destruct H.
  - cbn [app mq_send]. assert (Te : 0 <= fst (e_now e)) by (apply (T e s); left; reflexivity). destruct (out_ok A beh (fun _ => True) a0 Had Logic.I d a e K Te) as (d1 & a1 & m1 & n1 & E1 & K1). rewrite E1. cbn [bind]. destruct (bare_out d a e d1 a1 m1 n1 K B Te E1) as (B1 & _).
    destruct (n1 =? 0); [discriminate|]. destruct (e_ovf _); [discriminate|]. destruct s; [|discriminate]. specialize (IH d1 a1 K1 B1 ltac:(intros e' b' I; apply (T e' b'); right; exact I) (ex_intro _ t W)).
    destruct (mq_send _ _ _ _) as [[[[d2 a2] ps] k]| | |]; try discriminate. congruence.
Qed.

Lemma bare_receive : forall l s s' k, bare (l_daemon s) -> mq_receive beh s l = Ok (s', k) -> bare (l_daemon s').
Proof.
  induction l as [|[e x] l IH]; intros s s' k B E; cbn [mq_receive] in E; [injection E as <- _; exact B|]. destruct x as [b from|]; [|injection E as <- _; exact B].
  destruct (zlen b =? 0); [injection E as <- _; exact B|]. cbv zeta in E. destruct (message_parse _ _) as [[[m p] q]| |u|]; try discriminate.
  - destruct (in_re _ _ _ _ _ _) as [[[d a] n]| | |] eqn:Ei; cbn [bind] in E; try discriminate. eapply IH; [|exact E]. cbn [l_daemon]. eapply bare_in; eassumption.
  - eapply IH; [|exact E]. exact B.
Qed.
Lemma bare_send : forall l d a d' a' ps k, ok d a -> bare d -> timed l -> mq_send beh d a l = Ok (d', a', ps, k) -> bare d'.
Proof.
  induction l as [|[e s] l IH]; intros d a d' a' ps k K B T E; cbn [mq_send] in E; [discriminate|]. assert (Te : 0 <= fst (e_now e)) by (apply (T e s); left; reflexivity).
  destruct (out_ok A beh (fun _ => True) a0 Had Logic.I d a e K Te) as (d1 & a1 & m1 & n1 & E1 & K1). rewrite E1 in E. cbn [bind] in E. destruct (bare_out d a e d1 a1 m1 n1 K B Te E1) as (B1 & _).
  destruct (n1 =? 0); [injection E as <- _ _ _; exact B1|]. destruct (e_ovf _); [discriminate|]. destruct s; [|injection E as <- _ _ _; exact B1].
  destruct (mq_send beh d1 a1 l) as [[[[d2 a2] ps2] k2]| | |] eqn:E2; cbn [bind] in E; try discriminate. injection E as <- _ _ _. eapply IH; [exact K1|exact B1| |exact E2]. intros e' b' I. apply (T e' b'). right. exact I.
Qed.

(* The daemon when it sends, in a turn *)
Lemma turn_sends : forall terminate wait start s e ready li lo t, sane A beh (fun _ => True) a0 s -> bare (l_daemon s) -> 0 <= fst (e_now e) -> reading li -> timed lo ->
  match turn beh terminate wait start s e ready li lo t with
  | Ok (s', _, ps, v) => bare (l_daemon s') /\ ((ps = [] /\ v = Fails) \/ exists d a d' a' k, ok d a /\ bare d /\ mq_send beh d a lo = Ok (d', a', ps, k))
  | Hang => exists d a, ok d a /\ bare d /\ mq_send beh d a lo = Hang
  | _ => True
  end.
Proof.
  intros terminate wait start s e ready li lo t [K Hb] B T Rl Tl. unfold turn. destruct (sleep_ok A beh (fun _ => True) a0 Had Logic.I _ _ e K T) as (d & sl & E & K'). rewrite E. cbn [bind]. pose proof (bare_sleep _ _ _ _ B E) as B0. set (s1 := mkloop d (l_prog s) (l_buf s) (l_last s)).
  assert (K1 : sane A beh (fun _ => True) a0 s1) by (split; assumption). assert (B1 : bare (l_daemon s1)) by exact B0.
  assert (R1 : match (if ready then mq_receive beh s1 li else Ok (s1, true)) with Ok (s', _) => sane A beh (fun _ => True) a0 s' /\ bare (l_daemon s') | Hang => False | _ => True end).
  { destruct ready; [|split; assumption]. pose proof (receive_ok A beh (fun _ => True) a0 Had Logic.I li s1 K1 Rl) as X. destruct (mq_receive beh s1 li) as [[s2 k]| |[]|] eqn:Er; try exact Logic.I; try contradiction. split; [exact X|eapply bare_receive; eassumption]. }
  destruct (if ready then _ else _) as [[s2 k]| |[]|]; cbn [bind]; try exact Logic.I; try contradiction. destruct R1 as [[K2 Hb2] B2]. destruct k; cbn [negb]; [|split; [exact B2|left; auto]].
  destruct (mq_send beh (l_daemon s2) (l_prog s2) lo) as [[[[d3 a3] ps] k]| |[]|] eqn:Es; cbn [bind]; try exact Logic.I.
  - split; [eapply bare_send; eassumption|]. right. exists (l_daemon s2), (l_prog s2), d3, a3, k. auto.
  - exists (l_daemon s2), (l_prog s2). auto.
Qed.
Lemma session_bare : forall terminate wait start s, session beh a0 terminate wait start s -> bare (l_daemon s).
Proof.
  intros terminate wait start s K. induction K as [t family name type buf s T Et B E|s e ready li lo t s' sl ps K IH T Rl Tl E].
  - unfold begin in E. cbv zeta in E. cbn [step bind] in E. match type of E with context [mdnsd_query ?a ?b ?h ?t ?c] => destruct (mdnsd_query a b h t c) as [q| | |] end; cbn [bind] in E; try discriminate. injection E as <-.
    split; [|reflexivity]. split; [reflexivity|reflexivity|]. intros []; reflexivity.
  - pose proof (turn_sends terminate wait start s e ready li lo t (session_sane A beh (fun _ => True) a0 Had Logic.I _ _ _ _ K) IH T Rl Tl) as H. rewrite E in H. apply H.
Qed.

Lemma turn_steady : forall terminate wait start s e ready li lo t, session beh a0 terminate wait start s -> 0 <= fst (e_now e) -> reading li -> timed lo -> steady lo ->
  turn beh terminate wait start s e ready li lo t <> Hang.
Proof.
  intros terminate wait start s e ready li lo t K T Rl Tl (l1 & x & y & z & l2 & -> & W) E.
  pose proof (turn_sends terminate wait start s e ready li _ t (session_sane A beh (fun _ => True) a0 Had Logic.I _ _ _ _ K) (session_bare _ _ _ _ K) T Rl Tl) as H. rewrite E in H. destruct H as (d & a & K1 & B1 & H).
  exact (send_steady l1 x y z l2 d a K1 B1 Tl W H).
Qed.
Lemma turn_packets : forall terminate wait start s e ready li lo t s' sl ps v n, session beh a0 terminate wait start s -> 0 <= fst (e_now e) -> reading li -> timed lo -> within n lo ->
  turn beh terminate wait start s e ready li lo t = Ok (s', sl, ps, v) -> (length ps <= 2)%nat.
Proof.
  intros terminate wait start s e ready li lo t s' sl ps v n K T Rl Tl W E.
  pose proof (turn_sends terminate wait start s e ready li _ t (session_sane A beh (fun _ => True) a0 Had Logic.I _ _ _ _ K) (session_bare _ _ _ _ K) T Rl Tl) as H. rewrite E in H. destruct H as [_ [[-> _]|(d & a & d' & a' & k & K1 & B1 & H)]]; [apply Nat.le_0_l|].
  destruct lo as [|x [|y [|z lo]]].
  - discriminate H.
  - cbn [mq_send] in H. destruct x as [e1 s1]. destruct (out_re _ _ _ _) as [[[[d1 a1] m1] n1]| | |]; cbn [bind] in H; try discriminate. destruct (n1 =? 0); [injection H as _ _ <- _; apply Nat.le_0_l|]. destruct (e_ovf _); [discriminate|]. destruct s1; cbn [bind] in H; [discriminate|]. injection H as _ _ <- _. cbn [length]. lia.
  - cbn [mq_send] in H. destruct x as [e1 s1], y as [e2 s2]. destruct (out_re _ _ _ _) as [[[[d1 a1] m1] n1]| | |]; cbn [bind] in H; try discriminate. destruct (n1 =? 0); [injection H as _ _ <- _; apply Nat.le_0_l|]. destruct (e_ovf _); [discriminate|]. destruct s1; [|injection H as _ _ <- _; cbn [length]; lia].
    destruct (out_re _ _ _ _) as [[[[d2 a2] m2] n2]| | |]; cbn [bind] in H; try discriminate. destruct (n2 =? 0); cbn [bind] in H; [injection H as _ _ <- _; cbn [length]; lia|]. destruct (e_ovf _); cbn [bind] in H; [discriminate|]. destruct s2; cbn [bind] in H; [discriminate|injection H as _ _ <- _; cbn [length]; lia].
  - assert (T0 : 0 <= n) by (destruct x as [e1 b1]; rewrite <- (W e1 b1) by (left; reflexivity); apply (Tl e1 b1); left; reflexivity).
    pose proof (send_ends n x y z lo d a K1 B1 T0) as G. rewrite H in G. apply G. intros e1 b1 I. apply (W e1 b1). destruct I as [I|[I|[I|[]]]]; [left|right; left|right; right; left]; exact I.
Qed.
Lemma turn_brief : forall terminate wait start s e ready li lo t n, session beh a0 terminate wait start s -> 0 <= fst (e_now e) -> reading li -> timed lo -> within n lo ->
  ((3 <= length lo)%nat -> turn beh terminate wait start s e ready li lo t <> Hang) /\
  (forall s' sl ps v, turn beh terminate wait start s e ready li lo t = Ok (s', sl, ps, v) -> (length ps <= 2)%nat).
Proof.
  intros terminate wait start s e ready li lo t n K T Rl Tl W. split; [|intros s' sl ps v E; eapply turn_packets; eassumption]. intros L. apply turn_steady; try assumption.
  destruct lo as [|x [|y [|z lo]]]; cbn [length] in L; try lia. exists [], x, y, z, lo. split; [reflexivity|]. exists n. intros e1 b1 I. apply (W e1 b1). destruct I as [I|[I|[I|[]]]]; [left|right; left|right; right; left]; exact I.
Qed.
End Send.
