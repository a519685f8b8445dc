(* Callbacks that make no calls: both models agree. *)
From Verif Require Import Base Lemmas Hash HashProofs XhtProofs Wire Rec Qry Out In Api Reent RecInv RecSafe RecOps OutSafe QryInv QryOps CacheOps QryReg QryLoop InSafe InLoop InResp OutSpec DaemonInv ReentFacts ReentSafe.

(* The k-th callback returns -1 if cb k; the state counts callbacks *)
Definition plainly (cb : nat -> bool) : behaviour nat := fun k _ _ => Ok (S k, [], cb k).
Definition counted (r : res qrys) : res (qrys * nat) := s <- r;; Ok (s, ncb s).

Lemma q_answer_agree : forall s now cb c q x, qinv s -> c_q c = Some q -> qh s q = Some x ->
  (forall y, In y (centries s (cbucket (a_name (c_rr c)))) -> c_id y = c_id c -> c_q y = c_q c) ->
  q_answer_re (plainly cb) s (ncb s) now c = counted (q_answer s now cb c).
Proof.
  intros s now cb c q x H Eq Ex Own. unfold q_answer_re, q_answer, plainly, counted. cbv zeta. rewrite Eq. set (i := cbucket (a_name (c_rr c))) in *.
  set (f := fun y : cached => if Nat.eqb (c_id y) (c_id c) then set_cttl y (a_ttl (c_rr (if a_ttl (c_rr c) <=? now then set_cttl c 0 else c))) else y).
  set (s0 := set_centries s i (map f (centries s i))). assert (E0 : qh s0 q = Some x) by exact Ex. rewrite (qget_some _ _ _ E0). cbn [bind queries].
  change (ncb s0) with (ncb s). set (s1 := tell s0 (q_cb x) _).
  destruct (cb (ncb s)); [|reflexivity].
  assert (Fe : match find_entry (c_id c) (centries s1 i) with Some y => c_q y | None => Some q end = Some q).
  { destruct (find_entry (c_id c) (centries s1 i)) as [y|] eqn:Fe; [|reflexivity]. apply find_some in Fe as [Iy Ey]. apply Nat.eqb_eq in Ey.
    change (centries s1 i) with (centries s0 i) in Iy.
    assert (Ei : centries s0 i = map f (centries s i) \/ centries s0 i = []).
    { destruct (Nat.lt_ge_cases i (length (cache s))) as [L|L].
      - left. apply centries_set_same. exact L.
      - right. unfold centries, s0, set_centries. cbn [set_cache cache]. apply nth_overflow. rewrite upd_length. exact L. }
    destruct Ei as [Ei|Ei]; rewrite Ei in Iy; [|destruct Iy]. apply in_map_iff in Iy. destruct Iy as (y0 & E0' & I0).
    assert (K0 : c_id y0 = c_id c). { rewrite <- Ey, <- E0'. unfold f. destruct (Nat.eqb (c_id y0) (c_id c)); reflexivity. }
    assert (K1 : c_q y = c_q y0). { rewrite <- E0'. unfold f. destruct (Nat.eqb (c_id y0) (c_id c)); reflexivity. }
    rewrite K1, (Own y0 I0 K0). exact Eq. }
  rewrite Fe. assert (H1 : qinv s1).
  { assert (H0 : qinv s0).
    { eapply set_centries_inv; [exact H|apply sub_refl|]. apply Forall2_map_r. intros y _. unfold f. destruct (Nat.eqb (c_id y) (c_id c)); [apply set_cttl_keep|apply crel_keep, crel_refl]. }
    destruct H0; split; assumption. }
  destruct (q_done_spec s1 q x H1 E0) as (s' & E' & _ & _ & _ & _ & _ & _ & _ & _ & B & _). rewrite E'. cbn [bind]. rewrite B. reflexivity.
Qed.

Lemma expire_agree : forall ids rem s now cb i kept, map c_id rem = ids -> qinv s -> (i < Z.to_nat LPRIME)%nat -> centries s i = kept ++ rem ->
  expire_re (plainly cb) s (ncb s) now i ids = counted (expire_loop s now cb i ids).
Proof.
  induction ids as [|id ids IH]; intros rem s now cb i kept Eid H Li Ec; [reflexivity|].
  destruct rem as [|c rem]; [discriminate|]. cbn [map] in Eid. injection Eid as Eid1 Eid2. subst id.
  cbn [expire_re expire_loop]. rewrite Ec. pose proof (qi_cid _ H i) as ND. rewrite Ec in ND. rewrite find_entry_mid by exact ND.
  assert (Lc : (i < length (cache s))%nat) by (rewrite (qi_clen _ H); exact Li).
  assert (Ic : In c (centries s i)) by (rewrite Ec; apply in_or_app; right; left; reflexivity).
  destruct (a_ttl (c_rr c) <=? now) eqn:Ex.
  - rewrite drop_entry_mid by exact ND. set (s1 := set_centries s i (kept ++ rem)).
    assert (H1 : qinv s1).
    { eapply set_centries_inv; [exact H| |apply Forall2_refl'; intros; apply crel_keep, crel_refl]. rewrite Ec. apply sub_drop. }
    assert (E1 : centries s1 i = kept ++ rem) by (apply centries_set_same; exact Lc).
    change (ncb s) with (ncb s1). destruct (c_q c) as [q|] eqn:Eq.
    + destruct (qi_cq _ H i c q Ic Eq) as (x & Eqx & Mx). apply c_match_iff in Mx as Mx'.
      assert (Bi : cbucket (a_name (c_rr c)) = i) by (apply (qi_cbucket _ H i c Ic)).
      assert (NC : ~ In (c_id c) (map c_id (centries s1 i))).
      { rewrite E1. rewrite map_app in *. cbn [map] in ND. exact (NoDup_remove_2 _ _ _ ND). }
      rewrite (q_answer_agree s1 now cb c q x H1 Eq Eqx).
      2:{ rewrite Bi. intros y Iy Ey. destruct NC. rewrite <- Ey. apply in_map. exact Iy. }
      destruct (q_answer_spec s1 now cb c q x H1 Eq Eqx Mx') as (s2 & E2 & H2 & S2 & R2 & _). rewrite E2. unfold counted at 1. cbn [bind]. cbv zeta in R2.
      rewrite Bi, (with_ttl_notin _ _ _ NC), set_centries_id in R2.
      pose proof (R2 i) as R2i. rewrite E1 in R2i. destruct (Forall2_app_l _ _ _ _ _ _ R2i) as (kept' & rem' & Es2 & Fk & Fr).
      apply (IH rem' s2 now cb i kept'); [rewrite (map_id_crel _ _ Fr); exact Eid2|exact H2|exact Li|exact Es2].
    + cbn [bind]. apply (IH rem s1 now cb i kept); assumption.
  - apply (IH rem s now cb i (kept ++ [c])); try assumption. rewrite <- app_assoc. exact Ec.
Qed.
Lemma c_expire_agree : forall s now cb i, qinv s -> (i < Z.to_nat LPRIME)%nat -> c_expire_re (plainly cb) s (ncb s) now i = counted (c_expire s now cb i).
Proof. intros s now cb i H Li. exact (expire_agree _ (centries s i) s now cb i [] eq_refl H Li eq_refl). Qed.

Lemma gc_agree : forall is s now cb, qinv s -> (forall i, In i is -> (i < Z.to_nat LPRIME)%nat) -> gc_re (plainly cb) s (ncb s) now is = counted (gc_loop s now cb is).
Proof.
  induction is as [|i is IH]; intros s now cb H Li; [reflexivity|]. cbn [gc_re gc_loop]. rewrite c_expire_agree by (auto using in_eq).
  destruct (c_expire_spec s now cb i H (Li i (or_introl eq_refl))) as (s1 & T1 & E1 & H1 & _). rewrite E1. unfold counted at 1. cbn [bind]. apply IH; [exact H1|]. intros j K. apply Li. right. exact K.
Qed.

Lemma mark_inv : forall s i (p : cached -> bool) t, qinv s -> qinv (set_centries s i (map (fun x => if p x then set_cttl x t else x) (centries s i))).
Proof.
  intros s i p t H. eapply set_centries_inv; [exact H|apply sub_refl|]. apply Forall2_map_r. intros x _. destruct (p x); [apply set_cttl_keep|apply crel_keep, crel_refl].
Qed.

Lemma delete_agree : forall n s now cb i r, qinv s -> (i < Z.to_nat LPRIME)%nat -> delete_re (plainly cb) n s (ncb s) now i r = counted (delete_loop n s now cb i r).
Proof.
  induction n as [|n IH]; intros s now cb i r H Li; [reflexivity|]. cbn [delete_re delete_loop]. destruct (find _ _) as [c|]; [|reflexivity].
  set (s1 := set_centries s i _). assert (H1 : qinv s1) by (apply (mark_inv s i (fun x => Nat.eqb (c_id x) (c_id c)) 0); exact H).
  change (ncb s) with (ncb s1). rewrite c_expire_agree by assumption.
  destruct (c_expire_spec s1 now cb i H1 Li) as (s2 & T2 & E2 & H2 & _). rewrite E2. unfold counted at 1. cbn [bind]. apply IH; assumption.
Qed.

Lemma cache_agree : forall s now cb cls r from, qinv s -> wf_resource r -> cache_re (plainly cb) s (ncb s) now cls r from = counted (cache_rr s now cb cls r from).
Proof.
  intros s now cb cls r from H W. unfold cache_re, cache_rr. cbv zeta. set (i := cbucket (rr_name r)). assert (Li : (i < Z.to_nat LPRIME)%nat) by apply cbucket_lt.
  set (s0 := set_centries s i (map (fun c => if c_match (rr_name r) (rr_type r) c then set_cttl c 0 else c) (centries s i))).
  assert (H0 : qinv s0) by (apply mark_inv; exact H).
  assert (X : exists s1, (if rr_class r =? 32768 + cls then c_expire s0 now cb i else Ok s) = Ok s1 /\ qinv s1 /\
    (if rr_class r =? 32768 + cls then c_expire_re (plainly cb) s0 (ncb s) now i else Ok (s, ncb s)) = Ok (s1, ncb s1)).
  { destruct (rr_class r =? 32768 + cls); [|exists s; auto].
    change (ncb s) with (ncb s0). rewrite c_expire_agree by assumption. destruct (c_expire_spec s0 now cb i H0 Li) as (s1 & T1 & E1 & H1 & _). rewrite E1. exists s1. auto. }
  destruct X as (s1 & -> & H1 & ->). cbn [bind]. destruct (rr_ttl r =? 0); [apply delete_agree; assumption|].
  destruct (find _ _) as [c|] eqn:F; [reflexivity|]. destruct (_ && _); [reflexivity|].
  destruct (cache_answer r (now + rr_ttl r / 2 + 8) from) as [w|] eqn:Ew; [|reflexivity].
  destruct (q_find_spec s1 (rr_name r) (rr_type r) H1) as (o & -> & So). cbn [bind]. destruct o as [q|]; [|reflexivity].
  destruct So as (x & Ex & Nx & Yx). set (c := mkcached (cfresh s1) w (Some q)). set (s2 := mkqrys _ _ _ _ _ _ _ _ _).
  change (ncb s1) with (ncb s2).
  destruct (cache_answer_ok r (now + rr_ttl r / 2 + 8) from W) as (w' & Ew' & Kw & Tw & Nw & Yw). replace w' with w in * by congruence.
  apply (q_answer_agree s2 now cb c q x); [|reflexivity|exact Ex|].
  - apply insert_inv; try assumption; [rewrite Nw; reflexivity| |rewrite Nw, Yw; eauto].
    rewrite holds_rr_find in F. intros y Iy K. pose proof (find_none _ _ F y Iy) as M. unfold holds_rr in M. rewrite Kw in K. apply a_match_key in K; [congruence|exact W].
  - cbn [c c_rr c_id c_q]. rewrite Nw. fold i.
    assert (E2 : centries s2 i = c :: centries s1 i) by (unfold centries, s2; cbn [cache]; apply nth_upd_same; rewrite (qi_clen _ H1); exact Li).
    rewrite E2. intros y [<-|Iy] Ey; [reflexivity|]. apply (qi_cfresh _ H1) in Iy. lia.
Qed.

Lemma contest_Q : forall d e from did r d' did' skip, contest d e from did r = Ok (d', did', skip) -> Q d' = Q d /\ now d' = now d.
Proof.
  intros d e from did r d' did' skip. unfold contest. destruct (r_next _ _ _ _) as [[x|]| | |]; cbn [bind]; try discriminate; [|intros [= <- <- <-]; auto].
  destruct (hget _ _) as [X| | |]; cbn [bind]; try discriminate. destruct (_ && _ && _); [|intros [= <- <- <-]; auto].
  assert (Rk : forall d2 l, recheck d e from did = (d2, l) -> Q d2 = Q d /\ now d2 = now d).
  { intros d2 l. unfold recheck. destruct did.
    - destruct (is_local_spec d e from) as (i2 & tm2 & -> & _). intros [= <- _]. auto.
    - destruct (refresh_into d e true) as (i & tm & -> & _). destruct (is_local_spec (into d (R d) i tm (received d)) e from) as (i2 & tm2 & -> & _). intros [= <- _]. auto. }
  destruct (recheck d e from did) as [d2 l] eqn:Er. destruct (Rk d2 l eq_refl) as [K1 K2]. destruct l; [intros [= <- <- <-]; auto|].
  destruct (r_conflict (R d2) (now d2) x) as [s| | |]; cbn [bind]; try discriminate. intros [= <- <- <-]. auto.
Qed.

Lemma responses_agree : forall an d e from did, qinv (Q d) -> 0 <= fst (now d) -> Forall wf_resource an ->
  responses_re (plainly (e_cb e)) d (ncb (Q d)) e from did an = (d' <- responses d e from did an;; Ok (d', ncb (Q d'))).
Proof.
  induction an as [|r an IH]; intros d e from did H N W; [reflexivity|]. inversion W as [|? ? W1 W2]; subst. cbn [responses_re responses].
  match goal with |- _ = bind (bind ?x ?k) _ => assert (C : bind x k = ('(d, did, skip) <- contest d e from did r;; if skip : bool then responses d e from did an
      else let d := if has_recv d then add_received d r else d in q <- cache_rr (Q d) (fst (now d)) (e_cb e) (class d) r from;; responses (with_Q d q) e from did an)) end.
  { unfold contest. destruct (r_next _ _ _ _) as [o| | |]; reflexivity. }
  rewrite C. clear C. destruct (contest d e from did r) as [[[d1 did1] skip]| | |] eqn:E1; cbn [bind]; try reflexivity.
  destruct (contest_Q _ _ _ _ _ _ _ _ E1) as [Q1 N1]. rewrite <- Q1. destruct skip; [apply IH; [rewrite Q1; exact H|rewrite N1; exact N|exact W2]|]. cbv zeta.
  set (d2 := if has_recv d1 then add_received d1 r else d1).
  assert (G : Q d2 = Q d1 /\ now d2 = now d1) by (unfold d2; destruct (has_recv d1); cbn; auto). destruct G as [G1 G2].
  rewrite <- G1. assert (H2 : qinv (Q d2)) by (rewrite G1, Q1; exact H). assert (N2 : 0 <= fst (now d2)) by (rewrite G2, N1; exact N).
  rewrite cache_agree by assumption.
  destruct (cache_rr_spec (Q d2) (fst (now d2)) (e_cb e) (class d2) r from H2 N2 W1) as (q & T & o & id & E & Hq & _). rewrite E. unfold counted. cbn [bind].
  exact (IH (with_Q d2 q) e from did1 Hq N2 W2).
Qed.

Lemma in_agree : forall d e m from qs, rinv (R d) qs -> qinv (Q d) -> 0 <= fst (e_now e) -> wf_message m ->
  in_re (plainly (e_cb e)) d (ncb (Q d)) e m from = ('(d', n) <- mdnsd_in d e m from;; Ok (d', ncb (Q d'), n)).
Proof.
  intros d e m from qs HR H N W. unfold in_re, mdnsd_in. destruct (is_shutdown d); [reflexivity|]. cbv zeta. set (d0 := with_now d (e_now e)).
  destruct (is_local_spec d0 e from) as (i & tm & E & I). rewrite E. destruct (own_addr d0 from || listed i from); [reflexivity|].
  set (d1 := into d0 (R d0) i tm (received d0)). destruct (h_qr (m_header m) =? 0).
  - destruct (questions_sound (m_qd m) d1 e from false (m_id m) (m_an m) qs HR ltac:(discriminate)) as (s' & i' & tm' & L' & b & qs' & Cf & E' & _).
    rewrite E'. reflexivity.
  - change (ncb (Q d)) with (ncb (Q d1)). rewrite responses_agree; [|exact H|exact N|exact W].
    destruct (responses d1 e from false (m_an m)) as [d'| | |]; reflexivity.
Qed.

Lemma query_loop_agree : forall n s cb t frm cls q m best ret, qinv s ->
  query_loop_re (plainly cb) n s (ncb s) t frm cls q m best ret = ('(s', m', b', r') <- query_loop n s cb t frm cls q m best ret;; Ok (s', ncb s', m', b', r')).
Proof.
  induction n as [|n IH]; intros s cb t frm cls q m best ret H; [reflexivity|]. cbn [query_loop_re query_loop]. destruct q as [i|]; [|reflexivity].
  destruct (qh s i) as [x|] eqn:Ex; [|unfold qget; rewrite Ex; reflexivity]. rewrite (qget_some _ _ _ Ex). cbn [bind].
  destruct (_ || _); [destruct (q_link s i); cbn [bind]; try reflexivity; apply IH; exact H|].
  destruct (q_tries x =? 3).
  - rewrite c_expire_agree by (auto using cbucket_lt). destruct (c_expire_spec s t cb (cbucket (q_nm x)) H (cbucket_lt _)) as (s1 & T1 & E1 & H1 & _). rewrite E1. unfold counted. cbn [bind].
    assert (X : forall s2, q_reset s1 i = Ok s2 -> qinv s2 /\ ncb s2 = ncb s1).
    { intros s2. unfold q_reset. destruct (qh s1 i) as [y|] eqn:Ey; [|unfold qget; rewrite Ey; discriminate]. rewrite (qget_some _ _ _ Ey). cbn [bind]. cbv zeta.
      assert (K : forall t', qinv (qset s1 i (set_qnext y t' 0))) by (intros t'; eapply qset_inv; [exact H1|exact Ey|reflexivity|reflexivity]).
      destruct (_ && _); intros [= <-]; (split; [|reflexivity]); [apply set_checkq_inv|]; apply K. }
    destruct (q_reset s1 i) as [s2| | |]; cbn [bind]; try reflexivity. destruct (X s2 eq_refl) as [H2 K2].
    destruct (q_link s2 i) as [o| | |]; cbn [bind]; try reflexivity. rewrite <- K2. apply IH. exact H2.
  - cbv zeta. set (s1 := qset s i _). assert (H1 : qinv s1) by (eapply qset_inv; [exact H|exact Ex|reflexivity|reflexivity]).
    destruct (q_link s1 i) as [o| | |]; cbn [bind]; try reflexivity. change (ncb s) with (ncb s1). apply IH. exact H1.
Qed.

Lemma query_loop_inv : forall n s cb t frm cls q m best ret s' m' b' r', qinv s -> query_loop n s cb t frm cls q m best ret = Ok (s', m', b', r') -> qinv s'.
Proof.
  induction n as [|n IH]; intros s cb t frm cls q m best ret s' m' b' r' H; cbn [query_loop]; [discriminate|]. destruct q as [i|]; [|intros [= <- _ _ _]; exact H].
  destruct (qh s i) as [x|] eqn:Ex; [|unfold qget; rewrite Ex; discriminate]. rewrite (qget_some _ _ _ Ex). cbn [bind].
  destruct (_ || _); [destruct (q_link s i); cbn [bind]; try discriminate; apply IH; exact H|].
  destruct (q_tries x =? 3).
  - destruct (c_expire_spec s t cb (cbucket (q_nm x)) H (cbucket_lt _)) as (s1 & T1 & E1 & H1 & _). rewrite E1. cbn [bind].
    assert (X : forall s2, q_reset s1 i = Ok s2 -> qinv s2).
    { intros s2. unfold q_reset. destruct (qh s1 i) as [y|] eqn:Ey; [|unfold qget; rewrite Ey; discriminate]. rewrite (qget_some _ _ _ Ey). cbn [bind]. cbv zeta.
      assert (K : forall t', qinv (qset s1 i (set_qnext y t' 0))) by (intros t'; eapply qset_inv; [exact H1|exact Ey|reflexivity|reflexivity]).
      destruct (_ && _); intros [= <-]; [apply set_checkq_inv|]; apply K. }
    destruct (q_reset s1 i) as [s2| | |]; cbn [bind]; try discriminate.
    destruct (q_link s2 i) as [o| | |]; cbn [bind]; try discriminate. apply IH. exact (X s2 eq_refl).
  - cbv zeta. set (s1 := qset s i _). assert (H1 : qinv s1) by (eapply qset_inv; [exact H|exact Ex|reflexivity|reflexivity]).
    destruct (q_link s1 i) as [o| | |]; cbn [bind]; try discriminate. apply IH. exact H1.
Qed.

Lemma out_query_agree : forall s cb t frm cls m, qinv s ->
  out_query_re (plainly cb) s (ncb s) t frm cls m = ('(s', m', r') <- out_query s cb t frm cls m;; Ok (s', ncb s', m', r')).
Proof.
  intros s cb t frm cls m H. unfold out_query_re, out_query. destruct (_ && _); [|reflexivity]. destruct (query_ask s t cls (qlist s) m 0) as [[m1 b1]| | |]; cbn [bind]; try reflexivity.
  rewrite query_loop_agree by exact H. destruct (query_loop _ _ _ _ _ _ _ _ _ _) as [[[[s2 m2] b2] r2]| | |]; reflexivity.
Qed.
Lemma out_query_inv : forall s cb t frm cls m s' m' r', qinv s -> out_query s cb t frm cls m = Ok (s', m', r') -> qinv s'.
Proof.
  intros s cb t frm cls m s' m' r' H. unfold out_query. destruct (_ && _); [|intros [= <- _ _]; exact H]. destruct (query_ask s t cls (qlist s) m 0) as [[m1 b1]| | |]; cbn [bind]; try discriminate.
  destruct (query_loop _ _ _ _ _ _ _ _ _ _) as [[[[s2 m2] b2] r2]| | |] eqn:E; cbn [bind]; try discriminate. intros [= <- _ _]. apply set_checkq_inv. eapply query_loop_inv; eauto.
Qed.

Lemma out_agree : forall d e, qinv (Q d) ->
  out_re (plainly (e_cb e)) d (ncb (Q d)) e = ('(d', m, ret) <- mdnsd_out d e;; Ok (d', ncb (Q d'), m, ret)).
Proof.
  intros d e H. rewrite out_split. unfold out_re. destruct (out_first d e) as [[[d1 m1] sent]| | |] eqn:E1; cbn [bind]; try reflexivity.
  destruct (out_first_same d e d1 m1 sent E1) as (s & ->). destruct sent as [[m2 ret2]|]; [reflexivity|]. cbv zeta. cbn [with_R with_now Q frame class expireall d_family].
  rewrite out_query_agree by exact H. destruct (out_query _ _ _ _ _ _) as [[[s2 m2] r2]| | |] eqn:E2; cbn [bind]; try reflexivity.
  destruct (_ <? _); [|reflexivity]. unfold gc. rewrite gc_agree.
  - destruct (gc_loop _ _ _ _) as [s3| | |]; reflexivity.
  - eapply out_query_inv; eauto.
  - intros i K. apply in_seq in K. lia.
Qed.
