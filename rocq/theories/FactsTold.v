(* Entries that go are reported to their queries. *)
From Verif Require Import Base Lemmas Hash HashProofs Wire Rec Qry Out In Api RecInv RecSafe RecOps RecAddr OutSafe QryInv QryOps CacheOps QryReg QryLoop InSafe InLoop InResp OutPub OutProbe OutExtra OutAll OutSpec Shut DaemonInv SpecDaemon FactsCalls FactsLookup FactsItems FactsIn FactsOut SpecCache FactsCache.

(* No query for ANY, and every entry is linked to the query for its name and type *)
Record good (s : qrys) : Prop := mkgood {
  g_inv : qinv s;
  g_any : forall q x, qh s q = Some x -> q_ty x <> QTYPE_ANY;
  g_link : forall i c q x, In c (centries s i) -> qh s q = Some x -> q_nm x = a_name (c_rr c) -> q_ty x = a_type (c_rr c) -> c_q c = Some q
}.
(* Entries of queries that stay registered either stay or are reported *)
Record bids (s s' : qrys) (T : list (nat * answer)) : Prop := mkbids {
  b_told : told s' = told s ++ T;
  b_back : forall q x', qh s' q = Some x' -> exists x, qh s q = Some x /\ q_nm x' = q_nm x /\ q_ty x' = q_ty x /\ q_cb x' = q_cb x;
  b_bye : forall i c q x, In c (centries s i) -> c_q c = Some q -> qh s q = Some x -> qh s' q <> None ->
    (exists c', In c' (centries s' i) /\ c_id c' = c_id c /\ set_ttl (c_rr c') 0 = set_ttl (c_rr c) 0) \/ In (q_cb x, set_ttl (c_rr c) 0) T
}.
Definition fine (s s' : qrys) : Prop := good s' /\ exists T, bids s s' T.

Lemma good_match : forall s i c q, good s -> In c (centries s i) -> c_q c = Some q -> exists x, qh s q = Some x /\ q_nm x = a_name (c_rr c) /\ q_ty x = a_type (c_rr c).
Proof.
  intros s i c q G I E. destruct (qi_cq _ (g_inv _ G) i c q I E) as (x & Ex & M). apply c_match_iff in M as [M1 [M2|M2]]; [eauto|]. exfalso. exact (g_any _ G q x Ex M2).
Qed.
Lemma set_ttl_key : forall a b, set_ttl a 0 = set_ttl b 0 -> a_name a = a_name b /\ a_type a = a_type b.
Proof. intros a b E. split; [exact (f_equal a_name E)|exact (f_equal a_type E)]. Qed.

Lemma bids_refl : forall s, bids s s [].
Proof. intros s. split; [rewrite app_nil_r; reflexivity|eauto|]. intros i c q x I _ _ _. left. eauto. Qed.
Lemma fine_refl : forall s, good s -> fine s s.
Proof. intros s G. split; [exact G|]. exists []. apply bids_refl. Qed.
Lemma fine_trans : forall a b c, good a -> fine a b -> fine b c -> fine a c.
Proof.
  intros a b c G [Gb (T & [A1 A2 A3])] [Gc (U & [B1 B2 B3])]. split; [exact Gc|]. exists (T ++ U). split.
  - rewrite B1, A1, app_assoc. reflexivity.
  - intros q x' E. destruct (B2 q x' E) as (y & Ey & Y1 & Y2 & Y3). destruct (A2 q y Ey) as (x & Ex & X1 & X2 & X3). exists x. split; [exact Ex|]. repeat split; congruence.
  - intros i k q x I Ek Ex Live. destruct (qh c q) as [x'|] eqn:E'; [|congruence]. destruct (B2 q x' E') as (y & Ey & _). destruct (A2 q y Ey) as (x0 & Ex0 & Y1 & Y2 & Y3). assert (x0 = x) by congruence. subst x0.
    destruct (A3 i k q x I Ek Ex ltac:(rewrite Ey; discriminate)) as [(k1 & I1 & J1 & J2)|J]; [|right; apply in_or_app; left; exact J].
    destruct (set_ttl_key _ _ J2) as [K1 K2]. destruct (good_match a i k q G I Ek) as (x0 & Ex0' & M1 & M2). assert (x0 = x) by congruence. subst x0.
    assert (L1 : c_q k1 = Some q) by (apply (g_link _ Gb i k1 q y I1 Ey); congruence).
    destruct (B3 i k1 q y I1 L1 Ey ltac:(rewrite E'; discriminate)) as [(k2 & I2 & J3 & J4)|J]; [left; exists k2; split; [exact I2|split; congruence]|].
    right. apply in_or_app. right. rewrite J2, Y3 in J. exact J.
Qed.

(* The cache of a bucket replaced by an image of a part of it *)
Lemma centries_set : forall s i l j, centries (set_centries s i l) j = if Nat.eqb j i then (if Nat.ltb i (length (cache s)) then l else []) else centries s j.
Proof.
  intros s i l j. destruct (Nat.eqb_spec j i) as [->|D]; [|apply centries_set_other; exact D]. destruct (Nat.ltb_spec i (length (cache s))); [apply centries_set_same; assumption|].
  apply centries_big. unfold set_centries. cbn [cache set_cache]. rewrite upd_length. assumption.
Qed.

Lemma fine_map : forall s i f, good s -> (forall c, c_id (f c) = c_id c /\ set_ttl (c_rr (f c)) 0 = set_ttl (c_rr c) 0 /\ akey (c_rr (f c)) = akey (c_rr c) /\ c_q (f c) = c_q c) -> fine s (set_centries s i (map f (centries s i))).
Proof.
  intros s i f G F. set (s' := set_centries s i (map f (centries s i))).
  assert (Fwd : forall j c, In c (centries s j) -> exists c', In c' (centries s' j) /\ c_id c' = c_id c /\ set_ttl (c_rr c') 0 = set_ttl (c_rr c) 0).
  { intros j c I. unfold s'. rewrite centries_set. destruct (Nat.eqb_spec j i) as [->|D]; [|eauto].
    destruct (Nat.ltb_spec i (length (cache s))) as [Li|Li]; [|rewrite (centries_big s i Li) in I; destruct I]. exists (f c). split; [apply in_map; exact I|]. destruct (F c) as (A & B & _). auto. }
  assert (Bwd : forall j c', In c' (centries s' j) -> exists c, In c (centries s j) /\ akey (c_rr c') = akey (c_rr c) /\ c_q c' = c_q c).
  { intros j c' I. unfold s' in I. rewrite centries_set in I. destruct (Nat.eqb_spec j i) as [->|D]; [|eauto]. destruct (Nat.ltb i (length (cache s))); [|destruct I].
    apply in_map_iff in I as (c & <- & I). destruct (F c) as (_ & _ & A & B). eauto. }
  split.
  - split.
    + apply (set_centries_inv s i _ (centries s i) (g_inv _ G) (sub_refl _ _)). apply Forall2_map_r. intros c _. destruct (F c) as (A & _ & B & C). split; [exact A|]. split; [exact B|]. left. exact C.
    + exact (g_any _ G).
    + intros j c' q x I Ex N Ty. destruct (Bwd j c' I) as (c & Ic & Kc & Qc). unfold akey in Kc. rewrite Qc. apply (g_link _ G j c q x Ic Ex); congruence.
  - exists []. split; [rewrite app_nil_r; reflexivity|eauto|]. intros j c q x I _ _ _. left. apply Fwd. exact I.
Qed.

Lemma q_done_cache : forall s q x s', qh s q = Some x -> q_done s q = Ok s' ->
  cache s' = cache (set_centries s (cbucket (q_nm x)) (map (fun c => if c_match (q_nm x) (q_ty x) c then set_cq c None else c) (centries s (cbucket (q_nm x))))).
Proof.
  intros s q x s' E K. unfold q_done in K. rewrite (qget_some _ _ _ E) in K. cbn [bind] in K. cbv zeta in K. destruct (negb _ || negb _); [discriminate|]. injection K as <-. reflexivity.
Qed.

Lemma fine_done : forall s q x s', good s -> qh s q = Some x -> q_done s q = Ok s' -> fine s s'.
Proof.
  intros s q x s' G E K. pose proof (q_done_cache s q x s' E K) as Ec. destruct (q_done_spec s q x (g_inv _ G) E) as (s2 & E2 & H2 & N2 & O2 & _ & R2 & _ & _ & _ & _ & T2).
  assert (s2 = s') by congruence. subst s2. assert (Back : forall p y, qh s' p = Some y -> qh s p = Some y).
  { intros p y Ey. destruct (Nat.eq_dec p q) as [->|D]; [congruence|]. rewrite <- (O2 p D). exact Ey. }
  split.
  - split; [exact H2|intros p y Ey; exact (g_any _ G p y (Back p y Ey))|]. intros i c' p y I Ey N Ty.
    assert (Dq : p <> q) by (intros ->; congruence). apply Back in Ey. unfold centries in I. rewrite Ec in I. fold (centries (set_centries s (cbucket (q_nm x)) (map (fun c => if c_match (q_nm x) (q_ty x) c then set_cq c None else c) (centries s (cbucket (q_nm x))))) i) in I.
    rewrite centries_set in I. destruct (Nat.eqb_spec i (cbucket (q_nm x))) as [->|D]; [|exact (g_link _ G i c' p y I Ey N Ty)]. destruct (Nat.ltb _ _); [|destruct I].
    apply in_map_iff in I as (c & Ef & I). destruct (c_match (q_nm x) (q_ty x) c) eqn:M; [|subst c'; exact (g_link _ G _ c p y I Ey N Ty)].
    exfalso. apply Dq. apply c_match_iff in M as [M1 M2]. subst c'. cbn [set_cq c_rr] in N, Ty. destruct M2 as [M2|M2]; [|exfalso; exact (g_any _ G q x E M2)].
    apply (qi_one _ (g_inv _ G) p q y x Ey E); congruence.
  - exists []. split; [rewrite app_nil_r; exact T2|intros p y Ey; exists y; auto|]. intros i c p y I _ _ _. left. destruct (Forall2_in_l _ _ _ _ _ _ (R2 i) I) as (c' & I' & A & B & _). exists c'. rewrite B. auto.
Qed.

Lemma good_tell : forall s k a, good s -> good (tell s k a).
Proof. intros s k a [[F L N T1 T2 T3 T4 O C1 C2 C3 C4 C5 C6] G2 G3]. split; [|exact G2|exact G3]. split; assumption. Qed.

(* The callback is told what is passed, and may unregister its query *)
Lemma fine_answer : forall s now cb c q x s', good s -> c_q c = Some q -> qh s q = Some x -> q_answer s now cb c = Ok s' ->
  good s' /\ exists T, bids s s' ((q_cb x, ttl_now now (c_rr c)) :: T).
Proof.
  intros s now cb c q x s' G Eq Ex K. unfold q_answer in K. cbv zeta in K. rewrite Eq in K.
  assert (RE : c_rr (if a_ttl (c_rr c) <=? now then set_cttl c 0 else c) = ttl_now now (c_rr c)) by (unfold ttl_now; destruct (a_ttl (c_rr c) <=? now); reflexivity).
  rewrite RE in K. set (t := a_ttl (ttl_now now (c_rr c))) in *. set (i := cbucket (a_name (c_rr c))) in *.
  assert (Fm : fine s (set_centries s i (map (fun y => if Nat.eqb (c_id y) (c_id c) then set_cttl y t else y) (centries s i)))).
  { apply fine_map; [exact G|]. intros y. destruct (Nat.eqb _ _); [|auto]. cbn [set_cttl c_id c_rr c_q]. rewrite set_ttl_twice. repeat split. }
  set (s0 := set_centries s i _) in *. assert (E0 : qh s0 q = Some x) by exact Ex. rewrite (qget_some _ _ _ E0) in K. cbn [bind] in K.
  destruct Fm as [G0 (T0 & [B1 B2 B3])]. assert (T0 = []) as ->. { assert (L : told s0 = told s) by reflexivity. rewrite L in B1. symmetry in B1. rewrite <- (app_nil_r (told s)) in B1 at 2. apply app_inv_head in B1. exact B1. }
  set (s1 := tell s0 (q_cb x) (ttl_now now (c_rr c))) in *. assert (G1 : good s1) by (apply good_tell; exact G0).
  assert (K' : fine s1 s'). { destruct (cb (ncb s0)); [exact (fine_done s1 q x s' G1 E0 K)|]. injection K as <-. apply fine_refl. exact G1. }
  destruct K' as [G' (T & [D1 D2 D3])]. split; [exact G'|]. exists T. split.
  - rewrite D1. cbn [s1 tell told]. change (told s0) with (told s). rewrite <- app_assoc. reflexivity.
  - exact D2.
  - intros j k p y I Ek Ey Lv. destruct (B3 j k p y I Ek Ey) as [(k1 & I1 & J1 & J2)|[]].
    { change (qh s0 p) with (qh s p). rewrite Ey. discriminate. }
    destruct (set_ttl_key _ _ J2) as [K1 K2]. destruct (good_match s j k p G I Ek) as (y0 & Ey0 & M1 & M2). assert (y0 = y) by congruence. subst y0.
    assert (L1 : c_q k1 = Some p) by (apply (g_link _ G1 j k1 p y I1 Ey); congruence).
    destruct (D3 j k1 p y I1 L1 Ey Lv) as [(k2 & I2 & J3 & J4)|J]; [left; exists k2; split; [exact I2|split; congruence]|].
    right. right. rewrite <- J2. exact J.
Qed.

Lemma good_drop : forall s i l, good s -> sub l (centries s i) -> good (set_centries s i l).
Proof.
  intros s i l G S. split; [|exact (g_any _ G)|].
  - apply (set_centries_inv s i l l (g_inv _ G) S). apply Forall2_refl'. intros c. apply crel_keep, crel_refl.
  - intros j c q x I Ex N Ty. rewrite centries_set in I. destruct (Nat.eqb_spec j i) as [->|D]; [|exact (g_link _ G j c q x I Ex N Ty)]. destruct (Nat.ltb _ _); [|destruct I].
    exact (g_link _ G i c q x (sub_in _ _ _ _ S I) Ex N Ty).
Qed.

Lemma find_entry_some : forall id l c, find_entry id l = Some c -> In c l /\ c_id c = id.
Proof. intros id l c E. unfold find_entry in E. apply find_some in E as [I E]. apply Nat.eqb_eq in E. auto. Qed.
Lemma same_id : forall s i c c', qinv s -> In c (centries s i) -> In c' (centries s i) -> c_id c = c_id c' -> c = c'.
Proof.
  intros s i c c' H. pose proof (qi_cid _ H i) as N. revert N. generalize (centries s i). induction l as [|y l IH]; intros N I I' E; [destruct I|]. cbn [map] in N. apply NoDup_cons_iff in N as [N1 N2].
  destruct I as [->|I], I' as [->|I']; [reflexivity| | |apply IH; assumption].
  - exfalso. apply N1. rewrite E. apply in_map. exact I'.
  - exfalso. apply N1. rewrite <- E. apply in_map. exact I.
Qed.

Lemma fine_expire_loop : forall ids s now cb i s', good s -> expire_loop s now cb i ids = Ok s' -> fine s s'.
Proof.
  induction ids as [|id ids IH]; intros s now cb i s' G K; cbn [expire_loop] in K; [injection K as <-; apply fine_refl; exact G|].
  destruct (find_entry id (centries s i)) as [c|] eqn:Fe; [|discriminate]. destruct (find_entry_some _ _ _ Fe) as [Ic Eid]. destruct (a_ttl (c_rr c) <=? now) eqn:Old; [|exact (IH s now cb i s' G K)].
  set (s1 := set_centries s i (drop_entry id (centries s i))) in *. assert (G1 : good s1) by (apply good_drop; [exact G|apply sub_filter]).
  assert (Stay : forall j k, In k (centries s j) -> k = c \/ In k (centries s1 j)).
  { intros j k I. unfold s1. rewrite centries_set. destruct (Nat.eqb_spec j i) as [->|D]; [|auto]. destruct (Nat.ltb_spec i (length (cache s))) as [Li|Li]; [|rewrite (centries_big s i Li) in I; destruct I].
    destruct (Nat.eq_dec (c_id k) id) as [E|E]; [left; apply (same_id s i k c (g_inv _ G) I Ic); congruence|right]. unfold drop_entry. apply filter_In. split; [exact I|]. apply Nat.eqb_neq in E. rewrite E. reflexivity. }
  apply bind_ok in K as (s2 & K1 & K2).
  assert (F12 : good s2 /\ exists T, bids s s2 T).
  { destruct (c_q c) as [q|] eqn:Eq.
    - destruct (good_match s i c q G Ic Eq) as (x & Ex & _). destruct (fine_answer s1 now cb c q x s2 G1 Eq Ex K1) as [G2 (T & [B1 B2 B3])]. split; [exact G2|].
      exists ((q_cb x, ttl_now now (c_rr c)) :: T). split; [exact B1|exact B2|]. intros j k p y I Ek Ey Lv. destruct (Stay j k I) as [->|I1].
      + right. left. assert (p = q) by congruence. subst p. assert (y = x) by congruence. subst y. unfold ttl_now. rewrite Old. reflexivity.
      + exact (B3 j k p y I1 Ek Ey Lv).
    - injection K1 as <-. split; [exact G1|]. exists []. split; [rewrite app_nil_r; reflexivity|intros p y Ey; exists y; auto|]. intros j k p y I Ek _ _. destruct (Stay j k I) as [->|I1]; [congruence|]. left. eauto. }
  apply (fine_trans s s2 s' G F12). exact (IH s2 now cb i s' (proj1 F12) K2).
Qed.
Lemma fine_expire : forall s now cb i s', good s -> c_expire s now cb i = Ok s' -> fine s s'.
Proof. intros s now cb i s' G K. exact (fine_expire_loop _ s now cb i s' G K). Qed.
Lemma fine_gc : forall is s now cb s', good s -> gc_loop s now cb is = Ok s' -> fine s s'.
Proof.
  induction is as [|i is IH]; intros s now cb s' G K; cbn [gc_loop] in K; [injection K as <-; apply fine_refl; exact G|].
  apply bind_ok in K as (s1 & K1 & K2). pose proof (fine_expire s now cb i s1 G K1) as F1. apply (fine_trans s s1 s' G F1). exact (IH s1 now cb s' (proj1 F1) K2).
Qed.

Lemma fine_kill : forall s i p, good s -> fine s (set_centries s i (map (fun c => if p c : bool then set_cttl c 0 else c) (centries s i))).
Proof. intros s i p G. apply fine_map; [exact G|]. intros c. destruct (p c); [|auto]. cbn [set_cttl c_id c_rr c_q]. rewrite set_ttl_twice. repeat split. Qed.

Lemma fine_delete : forall n s now cb i r s', good s -> delete_loop n s now cb i r = Ok s' -> fine s s'.
Proof.
  induction n as [|n IH]; intros s now cb i r s' G K; cbn [delete_loop] in K; [discriminate|]. destruct (find _ (centries s i)) as [c|]; [|injection K as <-; apply fine_refl; exact G].
  cbv zeta in K. apply bind_ok in K as (s2 & K1 & K2). pose proof (fine_kill s i (fun x => Nat.eqb (c_id x) (c_id c)) G) as F1. set (s1 := set_centries s i _) in *.
  pose proof (fine_expire s1 now cb i s2 (proj1 F1) K1) as F2. pose proof (fine_trans s s1 s2 G F1 F2) as F. apply (fine_trans s s2 s' G F). exact (IH s2 now cb i r s' (proj1 F) K2).
Qed.

Lemma fine_insert : forall s a o, good s -> (forall c, In c (centries s (cbucket (a_name a))) -> akey (c_rr c) <> akey a) -> query_for s (a_name a) (a_type a) o ->
  fine s (mkqrys (qh s) (qfresh s) (qlist s) (qtab s) (upd (cache s) (cbucket (a_name a)) (mkcached (cfresh s) a o :: centries s (cbucket (a_name a)))) (S (cfresh s)) (checkq s) (ncb s) (told s)).
Proof.
  intros s a o G D Qf. set (i := cbucket (a_name a)) in *. set (s' := mkqrys _ _ _ _ _ _ _ _ _).
  assert (Li : (i < length (cache s))%nat) by (rewrite (qi_clen _ (g_inv _ G)); apply cbucket_lt).
  assert (Es : forall j, centries s' j = if Nat.eqb j i then mkcached (cfresh s) a o :: centries s i else centries s j).
  { intros j. unfold centries, s'. cbn [cache]. destruct (Nat.eqb_spec j i) as [->|Nj]; [apply nth_upd_same; exact Li|apply nth_upd_other; congruence]. }
  split.
  - split.
    + apply (insert_inv s i a o (g_inv _ G)); [unfold i; apply cbucket_lt|reflexivity|exact D|]. destruct o as [q|]; [|exact I]. exact Qf.
    + exact (g_any _ G).
    + intros j c q x Ij Ex N Ty. rewrite Es in Ij. change (qh s' q) with (qh s q) in Ex. destruct (Nat.eqb j i) eqn:Ej; [|exact (g_link _ G j c q x Ij Ex N Ty)].
      destruct Ij as [<-|Ij]; [|exact (g_link _ G i c q x Ij Ex N Ty)]. cbn [c_q c_rr] in *. unfold query_for in Qf. destruct o as [p|].
      * destruct Qf as (y & Ey & Y1 & Y2). f_equal. apply (qi_one _ (g_inv _ G) p q y x Ey Ex); congruence.
      * exfalso. exact (Qf q x Ex (conj N Ty)).
  - exists []. split; [rewrite app_nil_r; reflexivity|intros p y Ey; exists y; auto|]. intros j c q x Ij _ _ _. left. exists c. rewrite Es. split; [|auto].
    destruct (Nat.eqb_spec j i) as [->|Nj]; [right; exact Ij|exact Ij].
Qed.

Lemma fine_cache : forall s now cb cls r from s', good s -> wf_resource r -> cache_rr s now cb cls r from = Ok s' -> fine s s'.
Proof.
  intros s now cb cls r from s' G W K. unfold cache_rr in K. cbv zeta in K. set (i := cbucket (rr_name r)) in *. apply bind_ok in K as (s1 & K1 & K).
  assert (F1 : fine s s1).
  { destruct (rr_class r =? 32768 + cls); [|injection K1 as <-; apply fine_refl; exact G].
    pose proof (fine_kill s i (c_match (rr_name r) (rr_type r)) G) as F0. set (s0 := set_centries s i _) in *. apply (fine_trans s s0 s1 G F0). exact (fine_expire s0 now cb i s1 (proj1 F0) K1). }
  apply (fine_trans s s1 s' G F1). clear K1. destruct F1 as [G1 _]. destruct (rr_ttl r =? 0); [exact (fine_delete _ s1 now cb i r s' G1 K)|].
  rewrite holds_rr_find in K. destruct (find (holds_rr r) (centries s1 i)) as [c|] eqn:Fi.
  - injection K as <-. apply fine_map; [exact G1|]. intros y. destruct (Nat.eqb _ _); [|auto]. cbn [set_cttl c_id c_rr c_q]. rewrite set_ttl_twice. repeat split.
  - destruct (negb _ && _); [injection K as <-; apply fine_refl; exact G1|]. destruct (cache_answer_ok r (now + rr_ttl r / 2 + 8) from W) as (a & Ea & Ka & Ta & Na & Tya). rewrite Ea in K.
    apply bind_ok in K as (o & K2 & K). destruct (q_find_spec s1 (rr_name r) (rr_type r) (g_inv _ G1)) as (o' & Eo & So). assert (o' = o) by congruence. subst o'.
    assert (Dup : forall c, In c (centries s1 i) -> akey (c_rr c) <> akey a).
    { intros c I E. assert (X : holds_rr r c = true) by (apply a_match_key; [exact W|congruence]). rewrite (find_none _ _ Fi c I) in X. discriminate. }
    pose proof (fine_insert s1 a o G1) as F2. rewrite Na, Tya in F2. fold i in F2. specialize (F2 Dup So). set (s2 := mkqrys _ _ _ _ _ _ _ _ _) in *.
    apply (fine_trans s1 s2 s' G1 F2). destruct o as [q|]; [|injection K as <-; apply fine_refl; exact (proj1 F2)].
    destruct So as (x & Ex & _). destruct (fine_answer s2 now cb (mkcached (cfresh s1) a (Some q)) q x s' (proj1 F2) eq_refl Ex K) as [G' (T & B)]. split; [exact G'|]. exists ((q_cb x, ttl_now now a) :: T). exact B.
Qed.

(* ------------------------------------------------------------------ *)
(* Calls *)

Lemma fine_same : forall s s' , good s -> qinv s' -> qh s' = qh s -> cache s' = cache s -> told s' = told s -> fine s s'.
Proof.
  intros s s' G H E1 E2 E3. split.
  - split; [exact H|rewrite E1; exact (g_any _ G)|]. intros i c q x I. unfold centries in I. rewrite E2 in I. rewrite E1. exact (g_link _ G i c q x I).
  - exists []. split; [rewrite app_nil_r; exact E3|rewrite E1; intros q x E; exists x; auto|]. intros i c q x I _ _ _. left. exists c. unfold centries in *. rewrite E2. auto.
Qed.

Lemma fine_responses : forall an d e from did d', good (Q d) -> Forall wf_resource an -> responses d e from did an = Ok d' -> fine (Q d) (Q d').
Proof.
  induction an as [|a an IH]; intros d e from did d' G W K; cbn [responses] in K; [injection K as <-; apply fine_refl; exact G|]. apply Forall_cons_iff in W as [Wa W].
  apply bind_ok in K as (r & _ & K). apply bind_ok in K as ([[d1 did1] skip] & K1 & K).
  assert (E1 : Q d1 = Q d).
  { destruct r as [r|]; [|injection K1 as <- _ _; reflexivity]. apply bind_ok in K1 as (x & _ & K1). destruct (negb _ && _ && _); [|injection K1 as <- _ _; reflexivity].
    destruct (recheck d e from did) as [d2 l] eqn:Er. assert (E2 : Q d2 = Q d).
    { unfold recheck in Er. assert (Rf : forall f d0, Q (refresh d0 e f) = Q d0) by (intros f d0; destruct (refresh_into d0 e f) as (i & tm & -> & _); reflexivity).
      destruct (is_local_spec (if did then d else refresh d e true) e from) as (i & tm & Ei & _). rewrite Ei in Er. injection Er as <- _. cbn [into Q]. destruct did; [reflexivity|apply Rf]. }
    destruct l; [injection K1 as <- _ _; exact E2|]. apply bind_ok in K1 as (s & _ & K1). injection K1 as <- _ _. exact E2. }
  rewrite <- E1 in *. destruct skip; [exact (IH d1 e from did1 d' G W K)|]. cbv zeta in K.
  set (d2 := if has_recv d1 then add_received d1 a else d1) in *. assert (E2 : Q d2 = Q d1) by (unfold d2; destruct (has_recv d1); reflexivity).
  apply bind_ok in K as (q & K2 & K). rewrite <- E2 in *. pose proof (fine_cache _ _ _ _ _ _ _ G Wa K2) as F. apply (fine_trans _ q _ G F).
  exact (IH (with_Q d2 q) e from did1 d' (proj1 F) W K).
Qed.

Lemma fine_qset : forall s q x y, good s -> qh s q = Some x -> q_nm y = q_nm x -> q_ty y = q_ty x -> q_cb y = q_cb x -> fine s (qset s q y).
Proof.
  intros s q x y G E N Ty C. assert (Bk : forall p z, qh (qset s q y) p = Some z -> exists z0, qh s p = Some z0 /\ q_nm z = q_nm z0 /\ q_ty z = q_ty z0 /\ q_cb z = q_cb z0).
  { intros p z. cbn [qset qh set_qh]. destruct (Nat.eqb_spec p q) as [->|D]; intros K; [injection K as <-; exists x; auto|exists z; auto]. }
  split.
  - split; [exact (qset_inv s q x y (g_inv _ G) E N Ty)| |].
    + intros p z Ez. destruct (Bk p z Ez) as (z0 & E0 & _ & -> & _). exact (g_any _ G p z0 E0).
    + intros i c p z I Ez M1 M2. destruct (Bk p z Ez) as (z0 & E0 & A & B & _). apply (g_link _ G i c p z0 I E0); congruence.
  - exists []. split; [rewrite app_nil_r; reflexivity|exact Bk|]. intros i c p z I _ _ _. left. eauto.
Qed.
Lemma fine_checkq : forall s t, good s -> fine s (set_checkq s t).
Proof. intros s t G. apply fine_same; try reflexivity; [exact G|]. destruct (g_inv _ G) as [F L N T1 T2 T3 T4 O C1 C2 C3 C4 C5 C6]. split; assumption. Qed.
Lemma fine_reset : forall s q s', good s -> q_reset s q = Ok s' -> fine s s'.
Proof.
  intros s q s' G K. unfold q_reset in K. apply bind_ok in K as (x & E & K). unfold qget in E. destruct (qh s q) as [x0|] eqn:E0; [|discriminate]. injection E as ->. cbv zeta in K. set (t := reset_try _ _ _) in *.
  pose proof (fine_qset s q x (set_qnext x t 0) G E0 eq_refl eq_refl eq_refl) as F. destruct (negb _ && _); injection K as <-; [|exact F]. exact (fine_trans _ _ _ G F (fine_checkq _ _ (proj1 F))).
Qed.

Lemma fine_query_loop : forall fuel s cb t frm cls q m best ret s' m' b' r', good s -> query_loop fuel s cb t frm cls q m best ret = Ok (s', m', b', r') -> fine s s'.
Proof.
  induction fuel as [|fuel IH]; intros s cb t frm cls q m best ret s' m' b' r' G K; cbn [query_loop] in K; [discriminate|].
  destruct q as [i|]; [|injection K as <- _ _ _; apply fine_refl; exact G]. apply bind_ok in K as (x & E & K). unfold qget in E. destruct (qh s i) as [x0|] eqn:E0; [|discriminate]. injection E as ->.
  destruct ((q_next x =? 0) || (t <? q_next x)).
  { apply bind_ok in K as (n & _ & K). exact (IH _ _ _ _ _ _ _ _ _ _ _ _ _ G K). }
  destruct (q_tries x =? 3).
  - apply bind_ok in K as (s1 & K1 & K). apply bind_ok in K as (s2 & K2 & K). apply bind_ok in K as (n & _ & K).
    pose proof (fine_expire s t cb _ s1 G K1) as F1. pose proof (fine_reset s1 i s2 (proj1 F1) K2) as F2. pose proof (fine_trans _ _ _ G F1 F2) as F. apply (fine_trans _ s2 _ G F). exact (IH _ _ _ _ _ _ _ _ _ _ _ _ _ (proj1 F) K).
  - cbv zeta in K. apply bind_ok in K as (n & _ & K). pose proof (fine_qset s i x (set_qnext x (t + (q_tries x + 1)) (q_tries x + 1)) G E0 eq_refl eq_refl eq_refl) as F.
    apply (fine_trans _ _ _ G F). exact (IH _ _ _ _ _ _ _ _ _ _ _ _ _ (proj1 F) K).
Qed.
Lemma fine_out_query : forall s cb t frm cls m s' m' r', good s -> out_query s cb t frm cls m = Ok (s', m', r') -> fine s s'.
Proof.
  intros s cb t frm cls m s' m' r' G K. unfold out_query in K. destruct (negb _ && _); [|injection K as <- _ _; apply fine_refl; exact G].
  apply bind_ok in K as ([m1 b1] & _ & K). apply bind_ok in K as ([[[s1 m2] b2] r2] & K1 & K). injection K as <- _ _. pose proof (fine_query_loop _ _ _ _ _ _ _ _ _ _ _ _ _ _ G K1) as F.
  exact (fine_trans _ _ _ G F (fine_checkq _ _ (proj1 F))).
Qed.

Lemma fine_out : forall d e d' m n, good (Q d) -> mdnsd_out d e = Ok (d', m, n) -> fine (Q d) (Q d').
Proof.
  intros d e d' m n G K. unfold mdnsd_out in K. cbv zeta in K. destruct (uans (R (with_now d (e_now e)))) as [|u us].
  2:{ apply bind_ok in K as ([s m1] & _ & K). injection K as <- _ _. apply fine_refl. exact G. }
  apply bind_ok in K as ([[[s1 m1] seen1] r1] & _ & K). apply bind_ok in K as ([[[s2 m2] seen2] r2] & _ & K).
  destruct (is_shutdown _); [injection K as <- _ _; apply fine_refl; exact G|].
  apply bind_ok in K as ([[[s3 m3] seen3] r3] & _ & K). apply bind_ok in K as ([m4 seen4] & _ & K). destruct (negb (r3 =? 0)); [injection K as <- _ _; apply fine_refl; exact G|].
  apply bind_ok in K as ([[s5 m5] r5] & _ & K). destruct (negb (r5 =? 0)); [injection K as <- _ _; apply fine_refl; exact G|].
  apply bind_ok in K as ([[q6 m6] r6] & K6 & K). pose proof (fine_out_query _ _ _ _ _ _ _ _ _ G K6) as F. destruct (_ <? _).
  - apply bind_ok in K as (q7 & K7 & K). injection K as <- _ _. apply (fine_trans _ q6 _ G F). exact (fine_gc _ _ _ _ _ (proj1 F) K7).
  - injection K as <- _ _. exact F.
Qed.

(* Registering: entries stay, and are linked *)
Lemma good_query : forall s now host type answer s', good s -> type <> QTYPE_ANY -> mdnsd_query s now host type answer = Ok s' -> good s'.
Proof.
  intros s now host type answer s' G Na K. unfold mdnsd_query in K. apply bind_ok in K as (f & Kf & K). destruct (q_find_spec s host type (g_inv _ G)) as (o & Eo & So). assert (o = f) by congruence. subst o. clear Eo Kf.
  destruct f as [q|], answer as [cb|].
  - apply bind_ok in K as (x & E & K). unfold qget in E. destruct (qh s q) as [x0|] eqn:E0; [|discriminate]. injection E as ->. injection K as <-. split.
    + exact (qset_inv s q x (set_qcb x cb) (g_inv _ G) E0 eq_refl eq_refl).
    + intros p z. cbn [qset qh set_qh]. destruct (Nat.eqb_spec p q) as [->|D]; intros Ez; [injection Ez as <-; exact (g_any _ G q x E0)|exact (g_any _ G p z Ez)].
    + intros i c p z I. cbn [qset qh set_qh]. destruct (Nat.eqb_spec p q) as [->|D]; intros Ez M1 M2; [injection Ez as <-; exact (g_link _ G i c q x I E0 M1 M2)|exact (g_link _ G i c p z I Ez M1 M2)].
  - destruct So as (x & Ex & _). exact (proj1 (fine_done s q x s' G Ex K)).
  - cbv zeta in K. set (x := mkquery host type 0 0 cb) in *. match type of K with context [q_reset ?z _] => change z with (link_query s x) in K end. destruct (link_query_inv s x (g_inv _ G) So) as [H1 _].
    assert (G1 : good (link_query s x)).
    { split; [exact H1| |].
      - intros p z. cbn [link_query qh]. destruct (Nat.eqb_spec p (qfresh s)) as [->|D]; intros Ez; [injection Ez as <-; exact Na|exact (g_any _ G p z Ez)].
      - intros i c p z I Ez M1 M2. unfold centries, link_query in I. cbn [cache] in I. change (q_nm x) with host in I. change (q_ty x) with type in I.
        set (f := fun c => if c_match host type c then set_cq c (Some (qfresh s)) else c) in *. change (upd (cache s) (cbucket host) (map f (centries s (cbucket host)))) with (cache (set_centries s (cbucket host) (map f (centries s (cbucket host))))) in I.
        fold (centries (set_centries s (cbucket host) (map f (centries s (cbucket host)))) i) in I. rewrite centries_set in I. cbn [link_query qh] in Ez.
        assert (Old : forall k, In k (centries s i) -> c_match host type k = false -> a_name (c_rr k) = a_name (c_rr c) -> a_type (c_rr k) = a_type (c_rr c) -> c_q k = Some p).
        { intros k Ik Mk N1 N2. destruct (Nat.eqb_spec p (qfresh s)) as [->|D]; [|apply (g_link _ G i k p z Ik Ez); congruence]. injection Ez as <-. exfalso.
          assert (c_match host type k = true); [|congruence]. apply c_match_iff. cbn [x q_nm q_ty] in M1, M2. split; [congruence|left; congruence]. }
        destruct (Nat.eqb_spec i (cbucket host)) as [->|D].
        + destruct (Nat.ltb _ _); [|destruct I]. apply in_map_iff in I as (k & Ef & Ik). unfold f in Ef. destruct (c_match host type k) eqn:Mk; [|subst c; exact (Old k Ik Mk eq_refl eq_refl)].
          subst c. cbn [set_cq c_q c_rr] in *. destruct (Nat.eqb_spec p (qfresh s)) as [->|D]; [reflexivity|]. exfalso. apply c_match_iff in Mk as [Mk1 Mk2]. apply (So p z Ez). destruct Mk2 as [Mk2|Mk2]; [|contradiction]. split; congruence.
        + apply Old; auto. destruct (c_match host type c) eqn:Mk; [|reflexivity]. exfalso. apply D. apply c_match_iff in Mk as [Mk1 _]. rewrite <- Mk1. symmetry. exact (qi_cbucket _ (g_inv _ G) i c I). }
    apply bind_ok in K as (s2 & K2 & K). pose proof (fine_reset _ _ _ G1 K2) as [G2 _]. apply bind_ok in K as (y & Ey & K). unfold qget in Ey. destruct (qh s2 (qfresh s)) as [y0|] eqn:E0; [|discriminate]. injection Ey as ->. injection K as <-.
    apply fine_checkq. exact (proj1 (fine_qset s2 (qfresh s) y (set_qnext y now (q_tries y)) G2 E0 eq_refl eq_refl eq_refl)).
  - injection K as <-. exact G.
Qed.

Lemma fine_step : forall d e o d' x, reach d -> legal d e o -> step d e o = Ok (d', x) -> good (Q d) -> (forall n cb, o <> OQuery n QTYPE_ANY cb) ->
  good (Q d') /\ ((forall n ty cb, o <> OQuery n ty cb) -> fine (Q d) (Q d')).
Proof.
  intros d e o d' x K L E G Na. assert (Done : fine (Q d) (Q d') -> good (Q d') /\ ((forall n ty cb, o <> OQuery n ty cb) -> fine (Q d) (Q d'))) by (intros F; split; [exact (proj1 F)|auto]).
  destruct (records_only o) eqn:Ro.
  { apply Done. destruct (records_only_Q d e o d' x Ro E) as [-> _]. apply fine_refl. exact G. }
  destruct o; try discriminate; destruct L as [N L]; cbn [step] in E.
  - apply bind_ok in E as (q & E' & E). injection E as <- _. split; [|intros B; exfalso; exact (B _ _ _ eq_refl)]. apply (good_query _ _ _ _ _ _ G) in E'; [exact E'|]. intros ->. exact (Na _ _ eq_refl).
  - apply Done. apply bind_ok in E as ([d2 n] & E' & E). injection E as <- _. destruct (reach_dinv d K) as (qs & H & C). destruct (mdnsd_in_spec d e m from qs H C N L) as (d3 & n3 & qs' & E3 & A & _).
    rewrite E' in E3. injection E3 as <- <-. destruct A as [?|i tm|i0 tm0 d' qs' ? ? ? ? E|i0 tm0 d' qs' ? ? ? Qr E]; [apply fine_refl; exact G|apply fine_refl; exact G| |].
    + set (d1 := into (with_now d (e_now e)) (R d) i0 tm0 (received d)) in *.
      destruct (questions_sound (m_qd m) d1 e from false (m_id m) (m_an m) qs H ltac:(discriminate)) as (s' & i' & tm' & L' & b & qs2 & Cf & E2 & _).
      rewrite E in E2. injection E2 as ->. apply fine_refl. exact G.
    + exact (fine_responses (m_an m) (into (with_now d (e_now e)) (R d) i0 tm0 (received d)) e from false d' G L E).
  - apply Done. apply bind_ok in E as ([[d2 m] n] & E' & E). injection E as <- _. exact (fine_out _ _ _ _ _ G E').
  - apply Done. apply bind_ok in E as ([d2 t] & E' & E). injection E as <- _. rewrite (sleep_Q _ _ _ _ E'). apply fine_refl. exact G.
Qed.

Lemma good_new : forall t cls frm, 0 <= fst t -> good (Q (mdnsd_new t cls frm)).
Proof.
  intros t cls frm N. destruct (reach_dinv _ (reach_new t cls frm N)) as (qs & _ & (C1 & _)). split; [exact C1|discriminate|]. intros i c q x I. rewrite cache_new in I. destruct I.
Qed.
Lemma good_history : forall t cls frm l d, 0 <= fst t -> history (mdnsd_new t cls frm) l d -> asks_exact l -> good (Q d).
Proof.
  intros t cls frm l d N Hh. induction Hh as [|l d e o x d' Hh IH L E]; intros A; [apply good_new; exact N|].
  pose proof (history_reach _ _ _ (reach_new t cls frm N) Hh) as K.
  refine (proj1 (fine_step d e o d' x K L E _ _)); [apply IH; intros ev n cb I; apply A; apply in_or_app; left; exact I|]. intros n cb. exact (A (mkevent d e o x d') n cb ltac:(apply in_or_app; right; left; reflexivity)).
Qed.

(* An entry that is gone after a call was reported to its query, if the query
   is still registered. *)
Lemma gone_told : forall t cls frm l d e o x d', 0 <= fst t -> history (mdnsd_new t cls frm) l d -> asks_exact l -> legal d e o -> (forall n ty cb, o <> OQuery n ty cb) -> step d e o = Ok (d', x) ->
  exists T, calls_made (mkevent d e o x d') T /\
    forall c y y', cache_holds d c -> registered d y -> is_for y (a_name (c_rr c)) (a_type (c_rr c)) -> registered d' y' -> is_for y' (a_name (c_rr c)) (a_type (c_rr c)) ->
      (exists c', cache_holds d' c' /\ same_content (c_rr c') (c_rr c)) \/ In (q_cb y, set_ttl (c_rr c) 0) T.
Proof.
  intros t cls frm l d e o x d' N Hh A L Nq E. pose proof (history_reach _ _ _ (reach_new t cls frm N) Hh) as K. pose proof (good_history _ _ _ _ _ N Hh A) as G. pose proof (reach_step _ _ _ _ _ K L E) as K'.
  destruct (fine_step d e o d' x K L E G ltac:(intros; apply Nq)) as [_ F]. destruct (F Nq) as [_ (T & [B1 B2 B3])]. exists T. split; [exact B1|]. intros c y y' Hc (q & _ & Ey) [F1 F2] (q' & _ & Ey') [F3 F4].
  assert (q' = q) as ->. { destruct (B2 q' y' Ey') as (y0 & E0 & M1 & M2 & _). apply (qi_one _ (g_inv _ G) q' q y0 y E0 Ey); congruence. }
  apply (holds_bucket _ _ K) in Hc as (i & I). assert (Lc : c_q c = Some q) by (apply (g_link _ G i c q y I Ey F1 F2)).
  destruct (B3 i c q y I Lc Ey ltac:(rewrite Ey'; discriminate)) as [(c' & I' & J1 & J2)|J]; [left|right; exact J]. exists c'. split; [apply (holds_bucket _ _ K'); eauto|]. apply akey_iff.
  change (akey (c_rr c')) with (akey (set_ttl (c_rr c') 0)). rewrite J2. reflexivity.
Qed.

(* ------------------------------------------------------------------ *)
(* New answers *)

Lemma farewells_zero : forall s l p, In p (flat_map (farewell s) l) -> a_ttl (snd p) = 0.
Proof.
  intros s l p I. apply in_flat_map in I as (c & _ & I). unfold farewell in I. destruct (c_q c) as [q|]; [|destruct I]. destruct (qh s q); [|destruct I]. destruct I as [<-|[]]. reflexivity.
Qed.
Lemma news_byes : forall l, (forall p, In p l -> a_ttl (snd p) = 0) -> news l = [].
Proof. intros l H. unfold news. induction l as [|p l IH]; [reflexivity|]. cbn [filter]. rewrite (H p (or_introl eq_refl)). cbn [Z.eqb negb]. apply IH. intros x I. apply H. right. exact I. Qed.
Lemma news_app : forall a b, news (a ++ b) = news a ++ news b.
Proof. intros a b. apply filter_app. Qed.

Lemma news_told : forall s now cls r from o l, wf_resource r -> 0 <= now -> query_for s (rr_name r) (rr_type r) o ->
  let known := existsb (holds_rr r) (flushed now (rr_class r =? 32768 + cls) (rr_name r) (rr_type r) l) in
  (rr_ttl r = 0 \/ known = true \/ o = None) /\ news (told_of s now cls r from o l) = [] \/
  rr_ttl r <> 0 /\ known = false /\ exists q x a, o = Some q /\ qh s q = Some x /\ same_rr r a /\ a_ttl a = now + rr_ttl r / 2 + 8 /\ news (told_of s now cls r from o l) = [(q_cb x, a)].
Proof.
  intros s now cls r from o l W N Qf known. unfold told_of. cbv zeta. fold known. rewrite news_app.
  assert (Z1 : news (if rr_class r =? 32768 + cls then flat_map (farewell s) (filter (fun c => negb (survives now (c_match (rr_name r) (rr_type r)) c)) l) else []) = []).
  { apply news_byes. destruct (rr_class r =? 32768 + cls); [apply farewells_zero|intros p []]. }
  rewrite Z1. cbn [app]. destruct (rr_ttl r =? 0) eqn:T0.
  { left. split; [left; lia|]. apply news_byes. fold known. destruct known; [apply farewells_zero|intros p []]. }
  destruct known eqn:Kn; [left; auto|]. destruct o as [q|]; [|left; auto]. right. split; [lia|]. split; [reflexivity|].
  destruct Qf as (x & Ex & _). destruct (cache_answer_ok r (now + rr_ttl r / 2 + 8) from W) as (a & Ea & Ka & Ta & _). exists q, x, a. rewrite Ea, Ex. split; [reflexivity|]. split; [reflexivity|].
  split; [apply rkey_iff; assumption|]. split; [exact Ta|]. unfold news. cbn [filter snd]. destruct W as (W0 & _). pose proof (Z.div_pos (rr_ttl r) 2 W0 ltac:(lia)). replace (a_ttl a =? 0) with false by lia. reflexivity.
Qed.

Lemma one_answer : forall d e m from a d' x, reach d -> legal d e (OIn m from) -> is_shutdown d = false -> foreign d e from -> h_qr (m_header m) <> 0 -> m_an m = [a] -> (forall k, e_cb e k = false) ->
  step d e (OIn m from) = Ok (d', x) -> exists T, calls_made (mkevent d e (OIn m from) x d') T /\
    ((rr_ttl a = 0 \/ (exists c, cache_holds d c /\ same_rr a (c_rr c) /\ ~ flushes d a (c_rr c)) \/ (forall y, registered d y -> ~ is_for y (rr_name a) (rr_type a))) /\ news T = [] \/
     rr_ttl a <> 0 /\ (forall c, cache_holds d c -> same_rr a (c_rr c) -> flushes d a (c_rr c)) /\
       exists y v, registered d y /\ is_for y (rr_name a) (rr_type a) /\ same_rr a v /\ a_ttl v = fst (e_now e) + rr_ttl a / 2 + 8 /\ news T = [(q_cb y, v)]).
Proof.
  intros d e m from a d' x K L Sd F Qr Em Cb E. destruct (response_enters d e m from d' x K L Sd F Qr E) as (qs & d1 & H1 & Hq1 & EQ & En & Ec & Me & Er). destruct L as [N W]. unfold wf_message in W. rewrite Em in W, Er.
  apply Forall_cons_iff in W as [Wa _]. assert (N1 : 0 <= fst (now d1)) by (rewrite En; exact N).
  destruct (response_spec d1 e from false a [] qs H1 Hq1 N1 Wa ltac:(discriminate)) as (s2 & q2 & i2 & tm2 & L2 & did2 & qs2 & T & E2 & _ & _ & _ & _ & Sh & _ & Y).
  rewrite Me in Y. cbn [andb] in Y. destruct Y as (_ & o & id & _ & _ & Z). destruct (Z Cb) as (_ & _ & _ & Qf & _ & _ & ET). rewrite E2 in Er. cbn [responses] in Er. injection Er as <-.
  exists T. split; [unfold calls_made; cbn [ev_after ev_before heard Q]; rewrite (sh_told _ _ _ _ Sh), EQ; reflexivity|].
  rewrite EQ, Ec, En in *. destruct (news_told (Q d) (fst (e_now e)) (class d) a from o (centries (Q d) (cbucket (rr_name a))) Wa N Qf) as [[A B]|(A & B & q & y & v & -> & Ey & V1 & V2 & V3)]; rewrite <- ET in *.
  - left. split; [|exact B]. destruct A as [A|[A|A]]; [auto| |].
    + right. left. apply existsb_exists in A as (c & I & M). unfold flushed in I. assert (S : same_rr a (c_rr c)) by (apply a_match_iff; assumption).
      destruct (rr_class a =? 32768 + class d) eqn:Cl.
      * exfalso. apply filter_In in I as [_ I]. unfold survives in I. rewrite (a_match_c_match a c M) in I. rewrite andb_false_r in I. discriminate.
      * exists c. split; [apply (holds_bucket _ _ K); eauto|]. split; [exact S|]. intros (C1 & _). lia.
    + right. right. subst o. intros y (q & _ & Ey) [F1 F2]. exact (Qf q y Ey (conj F1 F2)).
  - right. split; [exact A|]. split.
    + intros c Hc S. pose proof S as (S1 & S2 & _). apply (holds_bucket _ _ K) in Hc as (i & I).
      assert (i = cbucket (rr_name a)) as -> by (rewrite S1; destruct (reach_dinv d K) as (? & _ & (C1 & _)); symmetry; exact (qi_cbucket _ C1 i c I)).
      destruct (Z.eq_dec (rr_class a) (class d + 32768)) as [Cl|Cl]; [split; [exact Cl|]; split; [exact S1|left; exact S2]|]. exfalso.
      apply (a_match_iff _ _ Wa) in S. unfold flushed in B. replace (rr_class a =? 32768 + class d) with false in B by lia.
      assert (X : existsb (holds_rr a) (centries (Q d) (cbucket (rr_name a))) = true) by (apply existsb_exists; exists c; auto). congruence.
    + destruct Qf as (y0 & Ey0 & F1 & F2). assert (y0 = y) by congruence. subst y0. exists y, v. split; [exists q; split; [|exact Ey]|split; [split; assumption|auto]].
      destruct (reach_dinv d K) as (? & _ & (C1 & _)). apply (qi_live _ C1). congruence.
Qed.

(* ------------------------------------------------------------------ *)
(* Several answers in one message act on cache and queries as one at a time *)

Fixpoint caches (s : qrys) (t cls : Z) (cb : nat -> bool) (from : addr) (an : list resource) : res qrys :=
  match an with [] => Ok s | a :: an => s <- cache_rr s t cb cls a from;; caches s t cls cb from an end.

Lemma caches_app : forall a b s t cls cb from, caches s t cls cb from (a ++ b) = (s' <- caches s t cls cb from a;; caches s' t cls cb from b).
Proof. induction a as [|x a IH]; intros b s t cls cb from; [reflexivity|]. cbn [app caches]. destruct (cache_rr s t cb cls x from); cbn [bind]; auto. Qed.

Lemma foreign_into : forall d e from d2, foreign d e from -> d_addr d2 = d_addr d -> d_addr6 d2 = d_addr6 d -> (ifs d2 = ifs d \/ ifs d2 = view d e) -> foreign d2 e from.
Proof.
  intros d e from d2 [F1 F2] A1 A2 I. split; [unfold own in *; rewrite A1, A2; exact F1|]. intros l [H|H]; [|apply F2; auto]. destruct I as [I|I]; rewrite I in H; [apply F2; auto|].
  unfold view in H. destruct (e_ifs e) as [k|] eqn:Ek; [injection H as <-|]; apply F2; auto.
Qed.

Lemma responses_caches : forall an d e from did d', (did = true -> ifs d = view d e) -> foreign d e from ->
  responses d e from did an = Ok d' -> caches (Q d) (fst (now d)) (class d) (e_cb e) from an = Ok (Q d') /\ foreign d' e from /\ is_shutdown d' = is_shutdown d /\ class d' = class d.
Proof.
  induction an as [|a an IH]; intros d e from did d' D Me K; [cbn [responses] in K; injection K as <-; auto|].
  cbn [responses] in K. apply bind_ok in K as (r & _ & K). apply bind_ok in K as ([[d2 did2] skip] & K1 & K).
  assert (X : skip = false /\ Q d2 = Q d /\ now d2 = now d /\ class d2 = class d /\ is_shutdown d2 = is_shutdown d /\ (did2 = true -> ifs d2 = view d2 e) /\ foreign d2 e from /\ has_recv d2 = has_recv d).
  { destruct r as [r|]; [|injection K1 as <- <- <-; auto 10]. apply bind_ok in K1 as (x & _ & K1). destruct (_ && a_match a (rr x)); [|injection K1 as <- <- <-; auto 10].
    destruct (recheck_spec d e from did D) as (tm & Er). rewrite Er, (foreign_me d e from Me) in K1. apply bind_ok in K1 as (s & _ & K1). injection K1 as <- <- <-. cbn [with_R into Q now class is_shutdown has_recv ifs].
    repeat (split; [reflexivity|]). split; [|split; [|reflexivity]].
    - intros _. unfold view at 2. cbn [with_R into ifs]. unfold view. destruct (e_ifs e); reflexivity.
    - apply (foreign_into d); auto. }
  destruct X as (-> & X1 & X2 & X3 & X4 & X5 & X6 & X7). cbn [caches].
  apply bind_ok in K as (q & K2 & K). assert (Y : Q (if has_recv d2 then add_received d2 a else d2) = Q d /\ now (if has_recv d2 then add_received d2 a else d2) = now d /\ class (if has_recv d2 then add_received d2 a else d2) = class d) by (destruct (has_recv d2); auto).
  destruct Y as (Y1 & Y2 & Y3). rewrite Y1, Y2, Y3 in K2. rewrite K2. cbn [bind].
  set (d3 := with_Q _ q) in K. assert (Z : Q d3 = q /\ now d3 = now d /\ class d3 = class d /\ is_shutdown d3 = is_shutdown d /\ ifs d3 = ifs d2 /\ d_addr d3 = d_addr d2 /\ d_addr6 d3 = d_addr6 d2) by (unfold d3; destruct (has_recv d2); cbn [with_Q add_received Q now class is_shutdown ifs d_addr d_addr6]; auto 10).
  destruct Z as (Z1 & Z2 & Z3 & Z4 & Z5 & Z6 & Z7). assert (V : view d3 e = view d2 e) by (unfold view; rewrite Z5; reflexivity).
  destruct (IH d3 e from did2 d' ltac:(rewrite V, Z5; exact X5) ltac:(apply (foreign_into d2); auto) K) as (C1 & C2 & C3 & C4).
  rewrite Z1, Z2, Z3 in C1. split; [exact C1|]. split; [exact C2|]. split; congruence.
Qed.

Lemma in_caches : forall d e m from d' x, is_shutdown d = false -> foreign d e from -> h_qr (m_header m) <> 0 -> step d e (OIn m from) = Ok (d', x) ->
  caches (Q d) (fst (e_now e)) (class d) (e_cb e) from (m_an m) = Ok (Q d') /\ foreign d' e from /\ is_shutdown d' = false /\ class d' = class d.
Proof.
  intros d e m from d' x Sd F Qr E. destruct (in_enters d e m from Sd F) as (i & tm & I & Ei). cbv zeta in Ei.
  replace (h_qr (m_header m) =? 0) with false in Ei by lia. cbn [step] in E. rewrite Ei in E. apply bind_ok in E as ([d2 n] & E & E'). injection E' as <- _. apply bind_ok in E as (d3 & E & E'). injection E' as <- _.
  apply responses_caches in E; [|discriminate|apply (foreign_into d); auto]. destruct E as (E1 & E2 & E3 & E4). split; [exact E1|]. split; [exact E2|]. split; [rewrite E3; exact Sd|exact E4].
Qed.

(* A message of several answers does to cache and queries what two messages
   with the same answers do. *)
Lemma in_pieces : forall d e m m1 m2 from d' x d1 x1 d2 x2, is_shutdown d = false -> foreign d e from ->
  h_qr (m_header m) <> 0 -> h_qr (m_header m1) <> 0 -> h_qr (m_header m2) <> 0 -> m_an m = m_an m1 ++ m_an m2 ->
  step d e (OIn m from) = Ok (d', x) -> step d e (OIn m1 from) = Ok (d1, x1) -> step d1 e (OIn m2 from) = Ok (d2, x2) -> Q d2 = Q d'.
Proof.
  intros d e m m1 m2 from d' x d1 x1 d2 x2 Sd F Qr Qr1 Qr2 Em E E1 E2.
  destruct (in_caches _ _ _ _ _ _ Sd F Qr E) as (A & _). destruct (in_caches _ _ _ _ _ _ Sd F Qr1 E1) as (B & B1 & B2 & B3). destruct (in_caches _ _ _ _ _ _ B2 B1 Qr2 E2) as (C & _).
  rewrite Em, caches_app, B in A. cbn [bind] in A. rewrite <- B3, C in A. injection A as ->. reflexivity.
Qed.

(* ------------------------------------------------------------------ *)
(* Who is called *)
Lemma called_right : forall d e o x d', reach d -> legal d e o -> step d e o = Ok (d', x) -> exists T, calls_made (mkevent d e o x d') T /\
  forall p, In p T -> exists y, registered d y /\ fst p = q_cb y /\ a_name (snd p) = q_nm y /\ (a_type (snd p) = q_ty y \/ q_ty y = QTYPE_ANY).
Proof.
  intros d e o x d' K L E. destruct (step_calls d e o d' x K L E) as (T & A1 & _ & A3 & _). exists T. split; [exact A1|]. intros p I. rewrite Forall_forall in A3. destruct (A3 p I) as (q & y & Ey & B1 & B2 & B3).
  exists y. split; [|split; [congruence|split; [congruence|destruct B3; auto]]]. exists q. split; [|exact Ey]. destruct (reach_dinv d K) as (qs & _ & (C1 & _)). apply (qi_live _ C1). congruence.
Qed.
