(* Supporting proofs for PropLookup.v. *)
From Verif Require Import Base Lemmas Hash HashProofs Wire Rec Qry Out In Api RecInv RecSafe RecOps RecAddr OutSafe QryInv QryOps CacheOps QryReg QryLoop DaemonInv SpecDaemon FactsCalls.

Lemma published_find : forall d name type, reach d -> exists o, mdnsd_find (R d) name type = Ok o /\
  match o with
  | Some r => published d r /\ exists X, record d r X /\ a_name (rr X) = name /\ a_type (rr X) = type
  | None => forall r X, published d r -> record d r X -> ~ (a_name (rr X) = name /\ a_type (rr X) = type)
  end.
Proof.
  intros d name type K. destruct (reach_dinv d K) as (qs & H & _). destruct (mdnsd_find_ok (R d) name type (ri_p _ _ H)) as (o & E & S). exists o. split; [exact E|].
  destruct o as [r|].
  - destruct S as (X & E1 & E2 & E3). split; [apply (published_live d K); exists X; exact E1|]. exists X. auto.
  - intros r X _ E1 [E2 E3]. exact (S r X E1 E3 E2).
Qed.

Lemma nodup_concat_in : forall (A : Type) (ls : list (list A)) l, NoDup (concat ls) -> In l ls -> NoDup l.
Proof.
  intros A ls. induction ls as [|a ls IH]; intros l N I; [destruct I|]. cbn [concat] in N. destruct I as [->|I].
  - clear -N. induction l as [|x l IH]; [constructor|]. cbn [app] in N. apply NoDup_cons_iff in N as [N1 N2]. constructor; [|apply IH; exact N2]. intros I. apply N1. apply in_or_app. left. exact I.
  - apply IH; [|exact I]. clear -N. induction a as [|x a IH]; [exact N|]. cbn [app] in N. apply NoDup_cons_iff in N as [_ N]. apply IH. exact N.
Qed.

Lemma published_listed : forall d host, reach d ->
  NoDup (mdnsd_get_published (R d) host) /\
  (forall r, In r (mdnsd_get_published (R d) host) -> published d r) /\
  (forall r X, published d r -> record d r X -> a_name (rr X) = host -> In r (mdnsd_get_published (R d) host)).
Proof.
  intros d host K. destruct (reach_dinv d K) as (qs & H & _). unfold mdnsd_get_published. split; [|split].
  - apply (nodup_concat_in _ (pub (R d))); [apply (pk_nodup _ (ri_p _ _ H))|]. unfold chain_of. apply nth_In. rewrite (pk_len _ (ri_p _ _ H)). apply rbucket_lt.
  - intros r I. apply (published_live d K). destruct (pok_chain_live (R d) host r (ri_p _ _ H) I) as (X & E & _). exists X. exact E.
  - intros r X _ E <-. apply pok_in; [apply (ri_p _ _ H)|exact E].
Qed.

Lemma has_query_iff : forall d host, reach d ->
  (mdnsd_has_query (Q d) host = true <-> exists x, registered d x /\ qbucket (q_nm x) = qbucket host).
Proof.
  intros d host K. destruct (reach_dinv d K) as (qs & _ & (H & _)). unfold mdnsd_has_query. destruct (nth (qbucket host) (qtab (Q d)) []) as [|q l] eqn:E; split; intros A.
  - discriminate.
  - exfalso. destruct A as (x & (q & I & Ex) & B). assert (J : In q (concat (qtab (Q d)))) by (apply (qi_tab _ H); exact I).
    apply in_concat in J as (b & Jb & Jq). apply (In_nth _ _ []) in Jb as (i & Li & <-). pose proof (qi_bucket _ H i q x Jq Ex) as Bi. rewrite B in Bi. subst i. rewrite E in Jq. destruct Jq.
  - assert (J : In q (qlist (Q d))).
    { apply (qi_tab _ H). apply in_concat. exists (nth (qbucket host) (qtab (Q d)) []). split; [apply nth_In; rewrite (qi_tlen _ H); apply qbucket_lt|rewrite E; left; reflexivity]. }
    pose proof (proj2 (qi_live _ H q) J) as L. destruct (qh (Q d) q) as [x|] eqn:Ex; [|congruence]. exists x. split; [exists q; auto|].
    apply (qi_bucket _ H (qbucket host) q x); [rewrite E; left; reflexivity|exact Ex].
  - reflexivity.
Qed.

Lemma find_filter_none : forall (A : Type) (f : A -> bool) l, find f l = None -> filter f l = [].
Proof.
  intros A f l. induction l as [|x l IH]; intros E; [reflexivity|]. cbn [find] in E. cbn [filter]. destruct (f x); [discriminate|apply IH; exact E].
Qed.
Lemma find_filter_some : forall (A : Type) (f : A -> bool) l x, find f l = Some x -> exists pre suf, l = pre ++ x :: suf /\ filter f l = x :: filter f suf.
Proof.
  intros A f l. induction l as [|y l IH]; intros x E; [discriminate|]. cbn [find] in E. cbn [filter]. destruct (f y) eqn:F.
  - injection E as <-. exists [], l. auto.
  - destruct (IH x E) as (pre & suf & -> & E2). exists (y :: pre), suf. auto.
Qed.

Lemma tail_entries_at : forall pre c suf, NoDup (map c_id (pre ++ c :: suf)) -> tail_entries (c_id c) (pre ++ c :: suf) = suf.
Proof.
  induction pre as [|x pre IH]; intros c suf N; cbn [app tail_entries]; [rewrite Nat.eqb_refl; reflexivity|]. cbn [app map] in N. apply NoDup_cons_iff in N as [N1 N2].
  destruct (Nat.eqb_spec (c_id x) (c_id c)) as [E|E]; [|apply IH; exact N2]. exfalso. apply N1. rewrite E, map_app. apply in_or_app. right. left. reflexivity.
Qed.
Lemma find_entry_at : forall l c, In c l -> exists c', find_entry (c_id c) l = Some c'.
Proof.
  intros l c I. unfold find_entry. destruct (find _ l) as [c'|] eqn:E; [eauto|]. pose proof (find_none _ _ E c I) as F. cbn beta in F. rewrite Nat.eqb_refl in F. discriminate.
Qed.

Lemma list_from : forall s host type, qinv s -> forall n suf pre last, length suf = n -> centries s (cbucket host) = pre ++ suf ->
  mdnsd_list s host type last = Ok (find (c_match host type) suf) -> listing (mdnsd_list s host type) last (filter (c_match host type) suf).
Proof.
  intros s host type H n. induction n as [n IH] using lt_wf_ind. intros suf pre last Ln E1 E2. destruct (find (c_match host type) suf) as [c|] eqn:F.
  - destruct (find_filter_some _ _ _ _ F) as (p2 & s2 & Es & Ef). rewrite Ef. apply listing_more; [exact E2|].
    assert (E3 : centries s (cbucket host) = (pre ++ p2) ++ c :: s2) by (rewrite E1, Es, app_assoc; reflexivity).
    assert (I : In c (centries s (cbucket host))) by (rewrite E3; apply in_or_app; right; left; reflexivity).
    apply (IH (length s2) ltac:(rewrite Es, app_length in Ln; cbn [length] in Ln; lia) s2 ((pre ++ p2) ++ [c]) (Some c) eq_refl); [rewrite E3, <- (app_assoc (pre ++ p2)); reflexivity|].
    cbn [mdnsd_list]. cbv zeta. rewrite (qi_cbucket _ H (cbucket host) c I). destruct (find_entry_at _ c I) as (c' & ->). f_equal. f_equal. rewrite E3. apply tail_entries_at.
    rewrite <- E3. apply (qi_cid _ H).
  - rewrite (find_filter_none _ _ _ F). apply listing_end. exact E2.
Qed.

Lemma cache_in_bucket : forall s c, qinv s -> (In c (concat (cache s)) <-> In c (centries s (cbucket (a_name (c_rr c))))).
Proof.
  intros s c H. split; intros I.
  - apply in_concat in I as (b & Ib & Ic). apply (In_nth _ _ []) in Ib as (i & Li & <-). rewrite (qi_cbucket _ H i c Ic). exact Ic.
  - apply in_concat. exists (centries s (cbucket (a_name (c_rr c)))). split; [|exact I]. unfold centries. apply nth_In. rewrite (qi_clen _ H). apply cbucket_lt.
Qed.

Lemma list_all : forall d host type, reach d -> exists l, listing (mdnsd_list (Q d) host type) None l /\ NoDup l /\
  forall c, In c l <-> cache_holds d c /\ a_name (c_rr c) = host /\ (a_type (c_rr c) = type \/ type = QTYPE_ANY).
Proof.
  intros d host type K. destruct (reach_dinv d K) as (qs & _ & (H & _)). exists (filter (c_match host type) (centries (Q d) (cbucket host))). split; [|split].
  - apply (list_from (Q d) host type H _ _ [] None eq_refl eq_refl). reflexivity.
  - apply NoDup_filter. apply (NoDup_map_inv c_id). apply (qi_cid _ H).
  - intros c. unfold cache_holds. rewrite filter_In, (cache_in_bucket (Q d) c H), c_match_iff. split.
    + intros (I & E & T). rewrite E. split; [exact I|]. split; [reflexivity|]. destruct T; [left|right]; congruence.
    + intros (I & E & T). rewrite E in I. split; [exact I|]. split; [exact E|]. destruct T; [left|right]; congruence.
Qed.

Lemma has_query_bucket : forall d host, reach d ->
  (mdnsd_has_query (Q d) host = true <-> exists x, registered d x /\ bucket_index (q_nm x) SPRIME = bucket_index host SPRIME).
Proof.
  intros d host K. rewrite (has_query_iff d host K). unfold qbucket. split; intros (x & A & B); exists x; (split; [exact A|]); [|rewrite B; reflexivity].
  apply Z2Nat.inj in B; [exact B| |]; apply bucket_index_range; reflexivity.
Qed.
