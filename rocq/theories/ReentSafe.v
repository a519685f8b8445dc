(* mdnsd_in and mdnsd_out with callbacks that register and remove queries. *)
From Verif Require Import Base Lemmas Hash HashProofs XhtProofs Wire Rec Qry Out In Api Reent RecInv RecSafe RecOps OutSafe QryInv QryOps CacheOps QryReg QryLoop InSafe InLoop InResp OutSpec DaemonInv ReentFacts.

Section Re.
Context {A : Type} (beh : behaviour A) (Ia : A -> Prop) (P : answer -> Prop) (strict : bool).
Hypothesis Pttl : forall x t, P x -> P (set_ttl x t).
Hypothesis Pnew : forall r ttl from w, wf_resource r -> cache_answer r ttl from = Some w -> P w.
Hypothesis Hb : forall a k x, Ia a -> P x -> exists a' l rm, beh a k x = Ok (a', l, rm) /\ Ia a' /\
  (rm = true -> Forall registers l) /\ (strict = true -> rm = false /\ Forall registers l).

(* What is kept throughout *)
Record sound (s : qrys) (a : A) : Prop := mksound {
  so_inv : qinv s; so_num : qnum s; so_pos : cpos s; so_holds : holds P s; so_ia : Ia a
}.
(* What the program is told on the way *)
Definition tells (s : qrys) (a : A) (s' : qrys) (a' : A) : Prop :=
  exists T, told s' = told s ++ T /\ replay beh a T a' /\ Forall (fun t => P (snd t)) T.
Lemma tells_refl : forall s a, tells s a s a.
Proof. intros s a. exists []. rewrite app_nil_r. repeat split; constructor. Qed.
Lemma tells_trans : forall s a s1 a1 s2 a2, tells s a s1 a1 -> tells s1 a1 s2 a2 -> tells s a s2 a2.
Proof.
  intros s a s1 a1 s2 a2 (T & T1 & T2 & T3) (U & U1 & U2 & U3).
  exists (T ++ U). split; [rewrite U1, T1; symmetry; apply app_assoc|]. split; [eapply replay_app; eauto|apply Forall_app; auto].
Qed.

Lemma cpos_from : forall s s', cpos s -> (forall i c', In c' (centries s' i) -> exists c, In c (centries s i) /\ csame c c') -> cpos s'.
Proof. intros s s' C F i c' I. destruct (F i c' I) as (c & Ic & _ & K). rewrite K. exact (C i c Ic). Qed.
Lemma holds_from : forall s s', holds P s -> (forall i c', In c' (centries s' i) -> exists c, In c (centries s i) /\ csame c c') -> holds P s'.
Proof. intros s s' C F i c' I. destruct (F i c' I) as (c & Ic & _ & K). rewrite K. exact (C i c Ic). Qed.

Lemma c_expire_sound : forall s a now i, sound s a -> 0 <= now -> (i < Z.to_nat LPRIME)%nat ->
  exists s' a', c_expire_re beh s a now i = Ok (s', a') /\ sound s' a' /\ tells s a s' a' /\ (strict = true -> grown s s').
Proof.
  intros s a now i [H Hn Hc Hd I] N Li.
  destruct (c_expire_re_ok beh Ia P strict Pttl Hb s a now i H I N Li (Hd i)) as (s' & a' & E & [G1 G2 G3 G4 G5 G6 G7] & R & O).
  assert (F : forall j c', In c' (centries s' j) -> exists c, In c (centries s j) /\ csame c c').
  { intros j c' Ic. destruct (Nat.eq_dec j i) as [->|D].
    - destruct (Forall2_in_r _ _ _ _ _ _ R Ic) as (c & Jc & K). apply filter_In in Jc as [Jc _]. eauto.
    - destruct (Forall2_in_r _ _ _ _ _ _ (O j D) Ic) as (c & Jc & K). eauto. }
  exists s', a'. split; [exact E|]. split; [split; auto; [eapply cpos_from|eapply holds_from]; eauto|]. split; [exact G4|exact G7].
Qed.

Lemma query_loop_re_ok : forall rest n pre s a t frm cls m best ret, sound s a -> 0 <= t ->
  (strict = true \/ forall q x, In q rest -> qh s q = Some x -> rests t x = false) -> qlist s = pre ++ rest -> (length rest < n)%nat ->
  exists s' a' m' best' ret', query_loop_re beh n s a t frm cls (hd_error rest) m best ret = Ok (s', a', m', best', ret') /\ sound s' a' /\ tells s a s' a'.
Proof.
  induction rest as [|i rest IH]; intros n pre s a t frm cls m best ret So N Md El Ln; destruct n as [|n]; try (cbn [length] in Ln; lia); cbn [hd_error query_loop_re].
  - do 5 eexists. split; [reflexivity|]. split; [exact So|apply tells_refl].
  - pose proof (so_inv _ _ So) as H. assert (Li : In i (qlist s)) by (rewrite El; apply in_or_app; right; left; reflexivity).
    destruct (qh s i) as [x|] eqn:Ex; [|apply (qi_live _ H) in Li; contradiction]. rewrite (qget_some _ _ _ Ex). cbn [bind].
    assert (LK : forall s' p, qinv s' -> qlist s' = p ++ pre ++ i :: rest -> qh s' i <> None -> q_link s' i = Ok (hd_error rest)).
    { intros s' p H' E K. unfold q_link. destruct (qh s' i) as [y|] eqn:Ey; [|congruence]. rewrite (qget_some _ _ _ Ey). cbn [bind].
      pose proof (qi_nodup _ H') as ND. rewrite E, app_assoc in *. pose proof (NoDup_remove_2 _ _ _ ND) as Ni. rewrite in_app_iff in Ni. rewrite tail_after_mid by tauto. reflexivity. }
    assert (TL : (length rest < n)%nat) by (cbn [length] in Ln; lia).
    pose proof (qi_nodup _ H) as ND. rewrite El in ND. pose proof (NoDup_remove_2 _ _ _ ND) as Ni. rewrite in_app_iff in Ni.
    destruct ((q_next x =? 0) || (t <? q_next x)) eqn:C1.
    + rewrite (LK s [] H El) by congruence. cbn [bind]. apply (IH n (pre ++ [i])); auto.
      * destruct Md as [Md|Md]; [auto|right]. intros q y I. apply Md. right. exact I.
      * rewrite <- app_assoc. exact El.
    + destruct (q_tries x =? 3) eqn:C2.
      * destruct Md as [Md|Md].
        2:{ exfalso. specialize (Md i x (or_introl eq_refl) Ex). destruct (so_num _ _ So i x Ex). unfold rests in Md. lia. }
        destruct (c_expire_sound s a t (cbucket (q_nm x)) So N (cbucket_lt _)) as (s1 & a1 & E1 & So1 & T1 & G1). rewrite E1. cbn [bind].
        destruct (G1 Md) as [Gq (p & Gl)]. destruct (Gq i x Ex) as (y & Ey & Ny & Yy & _).
        unfold q_reset. rewrite (qget_some _ _ _ Ey). cbn [bind]. cbv zeta. set (tt := reset_try _ _ _).
        set (s2 := qset s1 i (set_qnext y tt 0)). pose proof So1 as [H1 N1 P1 D1 I1].
        assert (H2 : qinv s2) by (eapply qset_inv; [exact H1|exact Ey|reflexivity|reflexivity]).
        set (s3 := if negb (tt =? 0) && (tt <? checkq s2) then set_checkq s2 tt else s2).
        assert (H3 : qinv s3) by (unfold s3; destruct (_ && _); [apply set_checkq_inv|]; exact H2).
        assert (F3 : qh s3 = qh s2 /\ qlist s3 = qlist s1 /\ cache s3 = cache s1 /\ told s3 = told s1) by (unfold s3; destruct (_ && _); repeat split).
        destruct F3 as (F1 & F2 & F3 & F4).
        assert (So3 : sound s3 a1).
        { split; auto.
          - intros q z Ez. rewrite F1 in Ez. cbn [s2 qset set_qh qh] in Ez. destruct (Nat.eqb_spec q i) as [->|D]; [|exact (N1 q z Ez)].
            injection Ez as <-. cbn [set_qnext q_tries q_next]. split; [lia|]. apply reset_try_pos. intros c Ic. exact (P1 _ c Ic).
          - intros j c. unfold centries. rewrite F3. exact (P1 j c).
          - intros j c. unfold centries. rewrite F3. exact (D1 j c). }
        rewrite (LK s3 p H3).
        2:{ rewrite F2, Gl, El. reflexivity. }
        2:{ rewrite F1. cbn [s2 qset set_qh qh]. rewrite Nat.eqb_refl. discriminate. }
        cbn [bind]. destruct (IH n (p ++ pre ++ [i]) s3 a1 t frm cls m best ret So3 N (or_introl Md)) as (s' & a' & m' & b' & r' & E' & So' & T').
        { rewrite F2, Gl, El, <- !app_assoc. reflexivity. }
        { exact TL. }
        exists s', a', m', b', r'. split; [exact E'|]. split; [exact So'|]. eapply tells_trans; [exact T1|].
        destruct T' as (T & K1 & K2). exists T. rewrite F4 in K1. auto.
      * cbv zeta. set (s1 := qset s i (set_qnext x (t + (q_tries x + 1)) (q_tries x + 1))). pose proof So as [_ Hn Hc Hd I].
        assert (H1 : qinv s1) by (eapply qset_inv; [exact H|exact Ex|reflexivity|reflexivity]).
        rewrite (LK s1 [] H1 El). 2:{ cbn [s1 qset set_qh qh]. rewrite Nat.eqb_refl. discriminate. }
        cbn [bind]. destruct (IH n (pre ++ [i]) s1 a t frm cls (known_answers frm cls t (q_nm x) (q_ty x) (centries s1 (cbucket (q_nm x))) m)
           (if (best =? 0) || (t + (q_tries x + 1) <? best) then t + (q_tries x + 1) else best) (ret + 1)) as (s' & a' & m' & b' & r' & E' & So' & T').
        { split; auto. intros q z Ez. cbn [s1 qset set_qh qh] in Ez. destruct (Nat.eqb_spec q i) as [->|D]; [|exact (Hn q z Ez)].
          injection Ez as <-. destruct (Hn i x Ex). cbn [set_qnext q_tries q_next]. lia. }
        { exact N. }
        { destruct Md as [Md|Md]; [auto|right]. intros q y Iq Ey. cbn [s1 qset set_qh qh] in Ey. destruct (Nat.eqb_spec q i) as [->|D]; [tauto|]. apply (Md q y); [right; exact Iq|exact Ey]. }
        { rewrite <- app_assoc. exact El. }
        { exact TL. }
        exists s', a', m', b', r'. auto.
Qed.

Lemma nodup_bound : forall n (l : list nat), NoDup l -> (forall x, In x l -> (x < n)%nat) -> (length l <= n)%nat.
Proof. intros n l ND L. rewrite <- (seq_length n 0). apply NoDup_incl_length; [exact ND|]. intros x I. apply in_seq. specialize (L x I). lia. Qed.

Lemma out_query_re_ok : forall s a t frm cls m, sound s a -> 0 <= t -> (strict = true \/ forall q x, qh s q = Some x -> rests t x = false) ->
  exists s' a' m' ret, out_query_re beh s a t frm cls m = Ok (s', a', m', ret) /\ sound s' a' /\ tells s a s' a'.
Proof.
  intros s a t frm cls m So N Md. unfold out_query_re. destruct (negb (checkq s =? 0) && (checkq s <=? t)).
  2:{ do 4 eexists. split; [reflexivity|]. split; [exact So|apply tells_refl]. }
  pose proof (so_inv _ _ So) as H. rewrite query_ask_spec by (intros q I; apply (qi_live _ H); exact I). cbn [bind].
  match goal with |- context [query_loop_re beh _ _ _ _ _ _ _ ?m1 ?b1 0] => destruct (query_loop_re_ok (qlist s) (S (qfresh s)) [] s a t frm cls m1 b1 0 So N) as (s' & a' & m' & b' & r' & E' & So' & T') end.
  { destruct Md as [Md|Md]; [auto|right]. intros q x _. apply Md. }
  { reflexivity. }
  { pose proof (nodup_bound (qfresh s) (qlist s) (qi_nodup _ H)) as K. apply Nat.lt_succ_r. apply K. intros q I. apply (qi_fresh _ H). apply (qi_live _ H). exact I. }
  rewrite E'. cbn [bind]. do 4 eexists. split; [reflexivity|]. split; [|exact T']. destruct So' as [K1 K2 K3 K4 K5]. split; auto. apply set_checkq_inv. exact K1.
Qed.

Lemma gc_sound : forall s a now, sound s a -> 0 <= now ->
  exists s' a', gc_re beh s a now (seq 0 (Z.to_nat LPRIME)) = Ok (s', a') /\ sound s' a' /\ tells s a s' a'.
Proof.
  intros s a now [H Hn Hc Hd I] N.
  destruct (gc_re_ok beh Ia P strict Pttl Hb (seq 0 (Z.to_nat LPRIME)) s a now H I N) as (s' & a' & E & [G1 G2 G3 G4 G5 G6 G7] & Hd' & F).
  { intros i K. apply in_seq in K. lia. }
  { exact Hd. }
  exists s', a'. split; [exact E|]. split; [split; auto; eapply cpos_from; eauto|exact G4].
Qed.

(* ------------------------------------------------------------------ *)
(* mdnsd_in *)

Lemma cache_sound : forall s a now cls r from, sound s a -> 0 <= now -> wf_resource r ->
  exists s' a', cache_re beh s a now cls r from = Ok (s', a') /\ sound s' a' /\ tells s a s' a'.
Proof.
  intros s a now cls r from [H Hn Hc Hd I] N W.
  destruct (cache_re_ok beh Ia P strict Pttl Hb Pnew s a now cls r from H I N W Hd) as (s' & a' & o & id & E & [G1 G2 G3 G4 G5 G6 G7] & Hd' & F & O).
  exists s', a'. split; [exact E|]. split; [|exact G4]. split; auto.
  intros j c' Ic. destruct (Nat.eq_dec j (cbucket (rr_name r))) as [->|D].
  - destruct (Forall2_in_r _ _ _ _ _ _ F Ic) as (c & Jc & _ & K). rewrite K.
    destruct (cached_in_source id now cls r from o _ c W Jc) as [I0|(_ & _ & Tt)].
    + exact (Hc _ c I0).
    + rewrite Tt. unfold new_ttl. destruct W as (W0 & _). pose proof (Z.div_pos (rr_ttl r) 2 W0 ltac:(lia)). lia.
  - destruct (Forall2_in_r _ _ _ _ _ _ (O j D) Ic) as (c & Jc & _ & K). rewrite K. exact (Hc j c Jc).
Qed.

Record dsound (d : daemon) (a : A) (qs : queue -> list nat) : Prop := mkdsound {
  ds_r : rinv (R d) qs; ds_q : sound (Q d) a; ds_now : 0 <= fst (now d)
}.

Lemma contest_ok : forall d e from did r qs, rinv (R d) qs -> (did = true -> ifs d = view d e) ->
  exists d' did' skip qs', contest d e from did r = Ok (d', did', skip) /\ rinv (R d') qs' /\ Q d' = Q d /\ now d' = now d /\ class d' = class d /\ is_shutdown d' = is_shutdown d /\
    (did' = true -> ifs d' = view d' e).
Proof.
  intros d e from did a qs H D. unfold contest. rewrite (r_next_first _ _ _ (ri_p _ _ H)). cbn [bind].
  destruct (hd_error (cands (hp (R d)) (rr_name a) (rr_type a) (chain_of (R d) (rr_name a)))) as [r|] eqn:Hd.
  2:{ exists d, did, false, qs. repeat (split; [auto; fail|]). exact D. }
  destruct (hp (R d) r) as [X|] eqn:EX.
  2:{ exfalso. destruct (cands (hp (R d)) (rr_name a) (rr_type a) (chain_of (R d) (rr_name a))) as [|r' l] eqn:El; [discriminate|]. injection Hd as ->.
      assert (I : In r (cands (hp (R d)) (rr_name a) (rr_type a) (chain_of (R d) (rr_name a)))) by (rewrite El; left; reflexivity). apply cands_in in I as (_ & X & K & _). congruence. }
  rewrite (hget_some _ _ _ EX). cbn [bind]. fold (disputes a X). destruct (disputes a X) eqn:Dp.
  2:{ exists d, did, false, qs. repeat (split; [auto; fail|]). exact D. }
  destruct (recheck_spec d e from did D) as (tm & Er). rewrite Er.
  assert (V : forall s, view (into d s (view d e) tm (received d)) e = view d e) by (intros s; unfold view, into; cbn [ifs]; destruct (e_ifs e); reflexivity).
  destruct (is_me d e from).
  - eexists. exists true, true, qs. split; [reflexivity|]. repeat (split; [auto; fail|]). intros _. rewrite V. reflexivity.
  - cbn [into R now]. assert (Nu : unique X <> 0) by (unfold disputes in Dp; lia).
    destruct (r_conflict_any (R d) qs (now d) r X H EX Nu) as (s1 & E1 & H1 & G1). rewrite E1. cbn [bind].
    eexists. exists true, false. eexists. split; [reflexivity|]. split; [exact H1|]. repeat (split; [auto; fail|]). intros _. symmetry. exact (V s1).
Qed.

Lemma responses_re_ok : forall an d a e from did qs, dsound d a qs -> Forall wf_resource an -> (did = true -> ifs d = view d e) ->
  exists d' a' qs', responses_re beh d a e from did an = Ok (d', a') /\ dsound d' a' qs' /\ tells (Q d) a (Q d') a' /\ is_shutdown d' = is_shutdown d.
Proof.
  induction an as [|r an IH]; intros d a e from did qs [H So N] W D; cbn [responses_re].
  - exists d, a, qs. split; [reflexivity|]. split; [split; assumption|]. split; [apply tells_refl|reflexivity].
  - inversion W as [|? ? W1 W2]; subst. destruct (contest_ok d e from did r qs H D) as (d1 & did1 & skip & qs1 & E1 & H1 & F1 & F2 & F3 & F4 & D1). rewrite E1. cbn [bind].
    destruct skip.
    + destruct (IH d1 a e from did1 qs1) as (d' & a' & qs' & E' & S' & T' & K'); auto.
      { split; [exact H1|rewrite F1; exact So|rewrite F2; exact N]. }
      exists d', a', qs'. rewrite F1 in T'. rewrite F4 in K'. auto.
    + set (d2 := if has_recv d1 then add_received d1 r else d1).
      assert (G : R d2 = R d1 /\ Q d2 = Q d /\ now d2 = now d /\ is_shutdown d2 = is_shutdown d /\ ifs d2 = ifs d1) by (unfold d2; destruct (has_recv d1); cbn; auto).
      destruct G as (G1 & G2 & G3 & G4 & G5).
      destruct (cache_sound (Q d2) a (fst (now d2)) (class d2) r from) as (q & a1 & E2 & S2 & T2); [rewrite G2; exact So|rewrite G3; exact N|exact W1|]. rewrite E2. cbn [bind].
      destruct (IH (with_Q d2 q) a1 e from did1 qs1) as (d' & a' & qs' & E' & S' & T' & K'); auto.
      { split; [cbn [with_Q R]; rewrite G1; exact H1|exact S2|cbn [with_Q now]; rewrite G3; exact N]. }
      { intros K. unfold view. cbn [with_Q ifs]. rewrite G5. apply (D1 K). }
      exists d', a', qs'. split; [exact E'|]. split; [exact S'|]. split; [rewrite G2 in T2; eapply tells_trans; eauto|]. cbn [with_Q is_shutdown] in K'. congruence.
Qed.

Lemma in_re_ok : forall d a e m from qs, dsound d a qs -> 0 <= fst (e_now e) -> wf_message m ->
  exists d' a' n qs', in_re beh d a e m from = Ok (d', a', n) /\ dsound d' a' qs' /\ tells (Q d) a (Q d') a' /\ is_shutdown d' = is_shutdown d.
Proof.
  intros d a e m from qs [H So N0] N W. unfold in_re. destruct (is_shutdown d) eqn:Sd.
  { exists d, a, 1, qs. split; [reflexivity|]. split; [split; assumption|]. split; [apply tells_refl|exact Sd]. }
  cbv zeta. set (d0 := with_now d (e_now e)). destruct (is_local_spec d0 e from) as (i & tm & E & I). rewrite E.
  destruct (own_addr d0 from || listed i from).
  { do 3 eexists. exists qs. split; [reflexivity|]. split; [split; [exact H|exact So|exact N]|]. split; [apply tells_refl|exact Sd]. }
  set (d1 := into d0 (R d0) i tm (received d0)). destruct (h_qr (m_header m) =? 0).
  - destruct (questions_sound (m_qd m) d1 e from false (m_id m) (m_an m) qs H ltac:(discriminate)) as (s' & i' & tm' & L' & b & qs' & Cf & E' & H' & _).
    rewrite E'. cbn [bind]. do 3 eexists. exists qs'. split; [reflexivity|]. split; [split; [exact H'|exact So|exact N]|]. split; [apply tells_refl|exact Sd].
  - destruct (responses_re_ok (m_an m) d1 a e from false qs) as (d' & a' & qs' & E' & S' & T' & K'); [split; [exact H|exact So|exact N]|exact W|discriminate|].
    rewrite E'. cbn [bind]. exists d', a', 0, qs'. split; [reflexivity|]. split; [exact S'|]. split; [exact T'|]. rewrite K'. exact Sd.
Qed.

(* ------------------------------------------------------------------ *)
(* mdnsd_out *)

Lemma out_split : forall d e, mdnsd_out d e =
  ('(d, m, sent) <- out_first d e;;
   match sent with
   | Some (m, ret) => Ok (d, m, ret)
   | None =>
       '(q, m, ret) <- out_query (Q d) (e_cb e) (fst (e_now e)) (frame d) (class d) m;;
       if expireall d <? fst (e_now e) then
         q <- gc q (fst (e_now e)) (e_cb e);;
         Ok (with_expireall (with_Q d q) (fst (e_now e) + GC), mkomsg (mcast (d_family d)) 0 false m, ret)
       else Ok (with_Q d q, mkomsg (mcast (d_family d)) 0 false m, ret)
   end).
Proof.
  intros d e. unfold mdnsd_out, out_first. cbv zeta. destruct (uans (R (with_now d (e_now e)))) as [|u us].
  2:{ destruct (out_unicast _ _ _ _ _) as [[s m]| | |]; reflexivity. }
  destruct (r_out _ _ _ _ _ _ _ _ _ _) as [[[[s m] seen] ret]| | |]; cbn [bind]; try reflexivity.
  destruct (out_publish _ _ _ _ _ _ _) as [[[[s1 m1] seen1] ret1]| | |]; cbn [bind]; try reflexivity.
  destruct (is_shutdown (with_now d (e_now e))); [reflexivity|].
  match goal with |- bind ?x _ = _ => destruct x as [[[[s2 m2] seen2] ret2]| | |] end; cbn [bind]; try reflexivity.
  destruct (additionals _ _ _ _ _ _) as [[m3 seen3]| | |]; cbn [bind]; try reflexivity.
  destruct (negb (ret2 =? 0)); [reflexivity|].
  destruct (out_probe _ _ _ _) as [[[s4 m4] ret4]| | |]; cbn [bind]; try reflexivity.
  destruct (negb (ret4 =? 0)); [reflexivity|]. cbn [bind]. reflexivity.
Qed.

Lemma out_first_same : forall d e d1 m sent, out_first d e = Ok (d1, m, sent) -> exists s, d1 = with_R (with_now d (e_now e)) s.
Proof.
  intros d e d1 m sent. unfold out_first. cbv zeta. destruct (uans (R (with_now d (e_now e)))) as [|u us].
  2:{ destruct (out_unicast _ _ _ _ _) as [[s m']| | |]; cbn [bind]; try discriminate. intros [= <- <- <-]. eauto. }
  destruct (r_out _ _ _ _ _ _ _ _ _ _) as [[[[s m'] seen] ret]| | |]; cbn [bind]; try discriminate.
  destruct (out_publish _ _ _ _ _ _ _) as [[[[s1 m1] seen1] ret1]| | |]; cbn [bind]; try discriminate.
  destruct (is_shutdown (with_now d (e_now e))); [intros [= <- <- <-]; eauto|].
  match goal with |- bind ?x _ = _ -> _ => destruct x as [[[[s2 m2] seen2] ret2]| | |] end; cbn [bind]; try discriminate.
  destruct (additionals _ _ _ _ _ _) as [[m3 seen3]| | |]; cbn [bind]; try discriminate.
  destruct (negb (ret2 =? 0)); [intros [= <- <- <-]; eauto|].
  destruct (out_probe _ _ _ _) as [[[s4 m4] ret4]| | |]; cbn [bind]; try discriminate.
  destruct (negb (ret4 =? 0)); intros [= <- <- <-]; eauto.
Qed.

(* Queries do not matter before *)
Lemma out_first_Q : forall d e q, out_first (with_Q d q) e = ('(d1, m, sent) <- out_first d e;; Ok (with_Q d1 q, m, sent)).
Proof.
  intros d e q. unfold out_first. cbv zeta. change (with_now (with_Q d q) (e_now e)) with (with_Q (with_now d (e_now e)) q).
  set (d0 := with_now d (e_now e)). change (R (with_Q d0 q)) with (R d0). change (frame (with_Q d0 q)) with (frame d0). change (class (with_Q d0 q)) with (class d0).
  change (disco (with_Q d0 q)) with (disco d0). change (is_shutdown (with_Q d0 q)) with (is_shutdown d0). change (d_family (with_Q d0 q)) with (d_family d0).
  destruct (uans (R d0)) as [|u us].
  2:{ destruct (out_unicast _ _ _ _ _) as [[s m']| | |]; reflexivity. }
  destruct (r_out _ _ _ _ _ _ _ _ _ _) as [[[[s m'] seen] ret]| | |]; cbn [bind]; try reflexivity.
  destruct (out_publish _ _ _ _ _ _ _) as [[[[s1 m1] seen1] ret1]| | |]; cbn [bind]; try reflexivity.
  destruct (is_shutdown d0); [reflexivity|].
  match goal with |- bind ?x _ = _ => destruct x as [[[[s2 m2] seen2] ret2]| | |] end; cbn [bind]; try reflexivity.
  destruct (additionals _ _ _ _ _ _) as [[m3 seen3]| | |]; cbn [bind]; try reflexivity.
  destruct (negb (ret2 =? 0)); [reflexivity|].
  destruct (out_probe _ _ _ _) as [[[s4 m4] ret4]| | |]; cbn [bind]; try reflexivity.
  destruct (negb (ret4 =? 0)); reflexivity.
Qed.

Lemma out_first_ok : forall d e qs, rinv (R d) qs -> 0 <= fst (e_now e) ->
  exists s m sent qs', out_first d e = Ok (with_R (with_now d (e_now e)) s, m, sent) /\ rinv s qs'.
Proof.
  intros d e qs H N. pose proof (calm_new (e_now e) 0 0 N) as (C1 & C2 & C3 & _). cbn [mdnsd_new Q] in C1, C2, C3.
  destruct (mdnsd_out_spec (with_Q d qrys_new) e qs H C1 C2 C3) as (d' & m & ret & qs' & E & _ & H' & _).
  { right. intros q x K. discriminate. }
  rewrite out_split, out_first_Q in E. destruct (out_first d e) as [[[d1 m1] sent]| | |] eqn:E1; cbn [bind] in E; try discriminate.
  destruct (out_first_same d e d1 m1 sent E1) as (s & ->). exists s, m1, sent, qs'. split; [reflexivity|].
  destruct sent as [[m2 ret2]|]; [injection E as <- <- <-; exact H'|].
  destruct (out_query _ _ _ _ _ _) as [[[q m3] ret3]| | |]; cbn [bind] in E; try discriminate.
  destruct (_ <? _) in E; [|injection E as <- <- <-; exact H'].
  destruct (gc _ _ _) as [q4| | |]; cbn [bind] in E; try discriminate. injection E as <- <- <-. exact H'.
Qed.

Lemma out_re_ok : forall d a e qs, dsound d a qs -> 0 <= fst (e_now e) -> strict = true \/ unexhausted d (fst (e_now e)) ->
  exists d' a' m ret qs', out_re beh d a e = Ok (d', a', m, ret) /\ dsound d' a' qs' /\ tells (Q d) a (Q d') a' /\ is_shutdown d' = is_shutdown d.
Proof.
  intros d a e qs [H So N0] N Md. unfold out_re. destruct (out_first_ok d e qs H N) as (s & m & sent & qs' & E & H'). rewrite E. cbn [bind].
  destruct sent as [[m' ret]|].
  { do 4 eexists. exists qs'. split; [reflexivity|]. split; [split; [exact H'|exact So|exact N]|]. split; [apply tells_refl|reflexivity]. }
  cbv zeta. cbn [with_R with_now Q frame class expireall d_family].
  destruct (out_query_re_ok (Q d) a (fst (e_now e)) (frame d) (class d) m So N) as (s1 & a1 & m1 & ret1 & E1 & S1 & T1).
  { destruct Md as [Md|Md]; [auto|right]. intros q x Ex. unfold rests. specialize (Md q x Ex). destruct (0 <? q_next x) eqn:?, (q_next x <=? fst (e_now e)) eqn:?, (q_tries x =? 3) eqn:?; try reflexivity. exfalso. lia. }
  rewrite E1. cbn [bind]. destruct (expireall d <? fst (e_now e)).
  - destruct (gc_sound s1 a1 (fst (e_now e)) S1 N) as (s2 & a2 & E2 & S2 & T2). rewrite E2. cbn [bind].
    do 4 eexists. exists qs'. split; [reflexivity|]. split; [split; [exact H'|exact S2|exact N]|]. split; [eapply tells_trans; eauto|reflexivity].
  - do 4 eexists. exists qs'. split; [reflexivity|]. split; [split; [exact H'|exact S1|exact N]|]. split; [exact T1|reflexivity].
Qed.
End Re.
