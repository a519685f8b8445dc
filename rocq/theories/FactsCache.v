(* Supporting proofs for PropCache.v. *)
From Verif Require Import Base Lemmas Hash HashProofs Wire Rec Qry Out In Api RecInv RecSafe RecOps RecAddr OutSafe QryInv QryOps CacheOps QryReg QryLoop InSafe InLoop InResp OutPub OutProbe OutExtra OutAll OutSpec Shut DaemonInv SpecDaemon FactsCalls FactsLookup FactsItems FactsIn FactsOut SpecCache.

(* ------------------------------------------------------------------ *)
(* Keys *)

Lemma akey_iff : forall x y, akey x = akey y <-> same_content x y.
Proof.
  intros x y. unfold akey, same_content, adata. split.
  - intros K. injection K as N T K. rewrite <- T in K. split; [exact N|]. split; [exact T|].
    destruct (a_type x =? QTYPE_SRV) eqn:C1.
    { apply Z.eqb_eq in C1. rewrite C1. injection K as K1 K2 K3 K4. unfold is_name_type, QTYPE_SRV, QTYPE_A, QTYPE_AAAA, QTYPE_NS, QTYPE_CNAME, QTYPE_PTR in *. cbn [Z.eqb Pos.eqb orb].
      split; [intros _; auto|]. split; [discriminate|]. split; [discriminate|]. split; [discriminate|]. intros B. contradiction. }
    apply Z.eqb_neq in C1. split; [intros; contradiction|]. destruct (is_name_type (a_type x)) eqn:C2.
    { injection K as K. split; [intros _; exact K|]. unfold is_name_type, QTYPE_A, QTYPE_AAAA, QTYPE_NS, QTYPE_CNAME, QTYPE_PTR in *. split; [lia|]. split; [lia|]. intros; discriminate. }
    split; [intros; discriminate|]. destruct (a_type x =? QTYPE_A) eqn:C3.
    { injection K as K. split; [intros _; exact K|]. unfold QTYPE_A, QTYPE_AAAA in *. split; [lia|]. intros; lia. }
    split; [lia|]. destruct (a_type x =? QTYPE_AAAA) eqn:C4; injection K as K; [split; [intros _; exact K|intros; lia]|]. split; [lia|]. intros. exact K.
  - intros (N & T & K1 & K2 & K3 & K4 & K5). rewrite <- N, <- T. f_equal.
    destruct (a_type x =? QTYPE_SRV) eqn:C1; [apply Z.eqb_eq in C1; destruct (K1 C1) as (A & B & C & D); congruence|]. apply Z.eqb_neq in C1.
    destruct (is_name_type (a_type x)) eqn:C2; [rewrite (K2 eq_refl); reflexivity|].
    destruct (a_type x =? QTYPE_A) eqn:C3; [apply Z.eqb_eq in C3; rewrite (K3 C3); reflexivity|]. apply Z.eqb_neq in C3.
    destruct (a_type x =? QTYPE_AAAA) eqn:C4; [apply Z.eqb_eq in C4; rewrite (K4 C4); reflexivity|]. apply Z.eqb_neq in C4.
    rewrite (K5 C1 eq_refl C3 C4). reflexivity.
Qed.
Lemma rkey_iff : forall a x, wf_resource a -> (akey x = rkey a <-> same_rr a x).
Proof. intros a x W. rewrite <- (a_match_key a x W). apply a_match_iff. exact W. Qed.

(* ------------------------------------------------------------------ *)
(* C41 *)

Lemma pairs_app : forall (A : Type) (P : A -> A -> Prop) l m, ForallOrdPairs P l -> ForallOrdPairs P m -> (forall x y, In x l -> In y m -> P x y) -> ForallOrdPairs P (l ++ m).
Proof.
  intros A P l m L M X. induction L as [|x l Fx L IH]; [exact M|]. cbn [app]. constructor.
  - apply Forall_app. split; [exact Fx|]. apply Forall_forall. intros y I. apply X; [left; reflexivity|exact I].
  - apply IH. intros a b Ia Ib. apply X; [right; exact Ia|exact Ib].
Qed.
Lemma pairs_keys : forall (A B : Type) (f : A -> B) l, NoDup (map f l) -> ForallOrdPairs (fun x y => f x <> f y) l.
Proof.
  intros A B f l. induction l as [|x l IH]; intros N; [constructor|]. cbn [map] in N. apply NoDup_cons_iff in N as [N1 N2]. constructor; [|apply IH; exact N2].
  apply Forall_forall. intros y I K. apply N1. rewrite K. apply in_map. exact I.
Qed.
Lemma pairs_weaken : forall (A : Type) (P P' : A -> A -> Prop) l, (forall x y, P x y -> P' x y) -> ForallOrdPairs P l -> ForallOrdPairs P' l.
Proof. intros A P P' l W L. induction L as [|x l Fx L IH]; constructor; [|exact IH]. eapply Forall_impl; [|exact Fx]. intros y. apply W. Qed.

Lemma buckets_apart : forall (ls : list (list cached)) k, (forall i c, In c (nth i ls []) -> cbucket (a_name (c_rr c)) = (k + i)%nat) ->
  (forall i, NoDup (map (fun c => akey (c_rr c)) (nth i ls []))) -> ForallOrdPairs (fun c c' => akey (c_rr c) <> akey (c_rr c')) (concat ls).
Proof.
  induction ls as [|l ls IH]; intros k B D; [constructor|]. cbn [concat]. apply pairs_app.
  - apply (pairs_keys _ _ (fun c => akey (c_rr c))). exact (D 0%nat).
  - apply (IH (S k)); [|intros i; exact (D (S i))]. intros i c I. rewrite (B (S i) c I). lia.
  - intros x y Ix Iy K. assert (Nx : a_name (c_rr x) = a_name (c_rr y)) by (unfold akey in K; congruence).
    pose proof (B 0%nat x Ix) as Bx. apply in_concat in Iy as (b & Ib & Iy). apply (In_nth _ _ []) in Ib as (i & Li & <-). pose proof (B (S i) y Iy) as By. rewrite Nx in Bx. lia.
Qed.

Lemma no_duplicates : forall d, reach d -> ForallOrdPairs (fun c c' => ~ same_content (c_rr c) (c_rr c')) (concat (cache (Q d))).
Proof.
  intros d K. destruct (reach_dinv d K) as (qs & _ & (H & _)). apply (pairs_weaken _ (fun c c' => akey (c_rr c) <> akey (c_rr c'))).
  - intros x y A B. apply A. apply akey_iff. exact B.
  - apply (buckets_apart _ 0); [|exact (qi_dup _ H)]. intros i c I. exact (qi_cbucket _ H i c I).
Qed.

(* ------------------------------------------------------------------ *)
(* C42 *)

Lemma holds_bucket : forall d c, reach d -> (cache_holds d c <-> exists i, In c (centries (Q d) i)).
Proof.
  intros d c K. unfold cache_holds, centries. split.
  - intros I. apply in_concat in I as (b & Ib & Ic). apply (In_nth _ _ []) in Ib as (i & _ & <-). eauto.
  - intros (i & I). apply in_concat. exists (nth i (cache (Q d)) []). split; [|exact I]. destruct (Nat.lt_ge_cases i (length (cache (Q d)))) as [L|L]; [apply nth_In; exact L|].
    rewrite nth_overflow in I by exact L. destruct I.
Qed.

Lemma local_dec : forall d e from, (own d from \/ exists l, snapshot d e = Some l /\ of_interface l from) \/
  (~ own d from /\ forall i, snapshot d e = Some i -> ~ of_interface i from).
Proof.
  intros d e from. destruct (own_addr d from) eqn:O; [left; left; apply own_addr_iff; exact O|]. destruct (snapshot d e) as [l|] eqn:S.
  - destruct (listed (Some l) from) eqn:Li; [left; right; exists l; split; [reflexivity|apply listed_iff; exact Li]|]. right. split.
    + intros C. apply own_addr_iff in C. congruence.
    + intros i E C. injection E as <-. apply listed_iff in C. congruence.
  - right. split; [intros C; apply own_addr_iff in C; congruence|]. intros i E. discriminate.
Qed.

Lemma step_cache : forall d e o d' x, reach d -> legal d e o -> step d e o = Ok (d', x) ->
  forall j c', In c' (centries (Q d') j) -> (exists c, In c (centries (Q d) j) /\ c_rr c' = c_rr c) \/
    exists m from a, o = OIn m from /\ h_qr (m_header m) <> 0 /\ In a (m_an m) /\ rr_ttl a <> 0 /\ same_rr a (c_rr c') /\ a_ttl (c_rr c') = fst (e_now e) + rr_ttl a / 2 + 8 /\
      ~ own d from /\ (forall i, snapshot d e = Some i -> ~ of_interface i from).
Proof.
  intros d e o d' x K L E j c' I. destruct (records_only o) eqn:Ro.
  { destruct (records_only_Q d e o d' x Ro E) as [Eq _]. left. exists c'. rewrite Eq in I. auto. }
  destruct (reach_dinv d K) as (qs & H & C). destruct o; try discriminate; destruct L as [N L].
  - cbn [step] in E. destruct C as (C1 & _). destruct (mdnsd_query_spec (Q d) (fst (now d)) host type answer C1) as (q' & o & E' & _ & _ & _ & CS & _). rewrite E' in E. injection E as <- _.
    destruct (Forall2_in_r _ _ _ _ _ _ (CS j) I) as (c & Ic & S1 & S2). left. exists c. auto.
  - destruct (local_dec d e from) as [Lo|Fo].
    { destruct (own_ignored d e m from Lo) as (d2 & n & E2 & _ & Eq & _). rewrite E2 in E. injection E as <- _. rewrite Eq in I. left. exists c'. auto. }
    cbn [step] in E. destruct (mdnsd_in_spec d e m from qs H C N L) as (d2 & n & qs' & E' & A & _). rewrite E' in E. injection E as <- _. destruct C as (C1 & _).
    destruct A as [?|i tm|i0 tm0 d' qs' ? ? ? ? E|i0 tm0 d' qs' ? ? ? Qr E]; [left; eauto|left; eauto| |].
    + set (d1 := into (with_now d (e_now e)) (R d) i0 tm0 (received d)) in *.
      destruct (questions_sound (m_qd m) d1 e from false (m_id m) (m_an m) qs H ltac:(discriminate)) as (s' & i' & tm' & L' & b & qs2 & Cf & E2 & _).
      rewrite E in E2. injection E2 as ->. left. exists c'. auto.
    + set (d1 := into (with_now d (e_now e)) (R d) i0 tm0 (received d)) in *.
      destruct (responses_sound (m_an m) d1 e from false qs H C1 N L ltac:(discriminate)) as (s' & q' & i' & tm' & L' & qs2 & T & Cf & E2 & _ & _ & _ & Sh & _ & _ & _ & _ & _ & _ & Ca & _).
      rewrite E in E2. injection E2 as ->. destruct (Ca j c' I) as [(c & Ic & _ & Rc & _)|(a & Ia & Ta & Ka & Na)]; [left; exists c; auto|].
      right. exists m, from, a. split; [reflexivity|]. split; [exact Qr|]. split; [exact Ia|]. split; [exact Ta|]. split; [|split; [exact Na|exact Fo]].
      apply rkey_iff; [|exact Ka]. exact (proj1 (Forall_forall _ _) L a Ia).
  - cbn [step] in E. apply bind_ok in E as ([[d2 m] n] & E' & E). injection E as <- <-.
    assert (E2 : step d e OOut = Ok (d2, RMsg m n)) by (cbn [step]; rewrite E'; reflexivity).
    destruct (out_cases d e d2 m n K (conj N L) E2) as (qs1 & qs' & _ & _ & O & _).
    destruct O as [u us X added Eu EX G|N0 restN P restP s' Eu Sd E1 E3 Dp A Ua Cf Bl|N0 restN P restP A restA s' added all seen Eu Sd D Eall Nall Eseen Af Ua Tp Tb Cf Tq G|N0 restN A restA s' l Eu Sd D E1 E3 El La Af Ua Cf Tp Tb Tq|N0 restN A restA s' q1 q' l m ret T V Eu Sd D E1 E3 El La Af Ua Cf Tp Tb Tq QO Ql Sh Zq Uq CK TO G];
      try (left; exists c'; auto; fail).
    left. cbn [with_expireall with_Q Q] in I. destruct (CK j) as [F|F]; destruct (Forall2_in_r _ _ _ _ _ _ F I) as (c & Ic & _ & Rc & _).
    + exists c. auto.
    + apply filter_In in Ic as [Ic _]. exists c. auto.
  - cbn [step] in E. apply bind_ok in E as ([d2 t] & E' & E). injection E as <- _. rewrite (sleep_Q _ _ _ _ E') in I. left. exists c'. auto.
Qed.

Lemma cache_new : forall t cls frm i, centries (Q (mdnsd_new t cls frm)) i = [].
Proof.
  intros t cls frm i. unfold centries, mdnsd_new. cbn [Q qrys_new cache]. destruct (Nat.lt_ge_cases i (Z.to_nat LPRIME)) as [L|L].
  - apply nth_repeat.
  - apply nth_overflow. rewrite repeat_length. exact L.
Qed.

Lemma cache_brought : forall t cls frm l d, 0 <= fst t -> history (mdnsd_new t cls frm) l d -> forall c, cache_holds d c -> brought l (c_rr c).
Proof.
  intros t cls frm l d N Hh. induction Hh as [|l d e o x d' Hh IH L E]; intros c I.
  - apply (holds_bucket _ _ (reach_new t cls frm N)) in I as (i & I). rewrite cache_new in I. destruct I.
  - pose proof (history_reach _ _ _ (reach_new t cls frm N) Hh) as K.
    apply (holds_bucket _ _ (reach_step _ _ _ _ _ K L E)) in I as (i & I).
    destruct (step_cache d e o d' x K L E i c I) as [(c0 & I0 & R0)|(m & from & a & -> & A1 & A2 & A3 & A4 & A5 & A6 & A7)].
    + destruct (IH c0) as (ev & m & from & a & Iv & B); [apply (holds_bucket _ _ K); eauto|]. rewrite R0. exists ev, m, from, a. split; [apply in_or_app; left; exact Iv|exact B].
    + eexists (mkevent d e (OIn m from) x d'), m, from, a. split; [apply in_or_app; right; left; reflexivity|]. cbn [ev_call ev_env ev_before]. auto 10.
Qed.

(* ------------------------------------------------------------------ *)
(* C43 *)

Lemma responses_split : forall pre an d e from did qs, rinv (R d) qs -> qinv (Q d) -> 0 <= fst (now d) -> Forall wf_resource pre -> (did = true -> ifs d = view d e) ->
  exists d1 did1 qs1, responses d e from did (pre ++ an) = responses d1 e from did1 an /\ rinv (R d1) qs1 /\ qinv (Q d1) /\ now d1 = now d /\ class d1 = class d /\
    (did1 = true -> ifs d1 = view d1 e) /\ is_me d1 e from = is_me d e from.
Proof.
  induction pre as [|a pre IH]; intros an d e from did qs H Hq N W D; [exists d, did, qs; auto 10|].
  apply Forall_cons_iff in W as [Wa W]. cbn [app].
  destruct (response_spec d e from did a (pre ++ an) qs H Hq N Wa D) as (s1 & q1 & i1 & tm1 & L1 & did1 & qs1 & T1 & E1 & Ii & Di & H1 & Hq1 & _).
  rewrite E1. set (d1 := heard d s1 q1 i1 tm1 (received d ++ L1)) in *.
  assert (V1 : view d1 e = view d e).
  { unfold view, d1. destruct (e_ifs e) as [l|] eqn:Ee; [reflexivity|]. cbn [heard ifs]. destruct Ii as [->| ->]; [reflexivity|]. unfold view. rewrite Ee. reflexivity. }
  assert (D1 : did1 = true -> ifs d1 = view d1 e) by (intros K; rewrite V1; apply Di; exact K).
  destruct (IH an d1 e from did1 qs1 H1 Hq1 N W D1) as (d2 & did2 & qs2 & E2 & A1 & A2 & A3 & A4 & A5 & A6).
  exists d2, did2, qs2. split; [exact E2|]. split; [exact A1|]. split; [exact A2|]. split; [exact A3|]. split; [exact A4|]. split; [exact A5|].
  rewrite A6. unfold is_me. rewrite V1. reflexivity.
Qed.

Lemma cached_in_bye : forall id now cls a from o l c, wf_resource a -> rr_ttl a = 0 -> In c (cached_in id now cls a from o l) -> holds_rr a c = false.
Proof.
  intros id now cls a from o l c W Z0 I. unfold cached_in in I. cbv zeta in I. rewrite Z0 in I. cbn [Z.eqb] in I. set (l1 := flushed _ _ _ _ l) in *. unfold withdrawn in I.
  destruct (existsb (holds_rr a) l1) eqn:X.
  - apply filter_In in I as [_ S]. unfold survives in S. apply andb_true_iff in S as [_ S]. destruct (holds_rr a c); [discriminate|reflexivity].
  - destruct (holds_rr a c) eqn:M; [|reflexivity]. exfalso. assert (X' : existsb (holds_rr a) l1 = true) by (apply existsb_exists; eauto). congruence.
Qed.

Lemma cached_in_flush : forall id now cls a from o l c, wf_resource a -> rr_class a = 32768 + cls -> In c (cached_in id now cls a from o l) ->
  c_match (rr_name a) (rr_type a) c = true -> rr_ttl a <> 0 /\ akey (c_rr c) = rkey a.
Proof.
  intros id now cls a from o l c W Cl I M. unfold cached_in in I. cbv zeta in I. rewrite Cl, Z.eqb_refl in I. cbn [flushed] in I. set (l1 := filter _ l) in *.
  assert (F : forall c, In c l1 -> c_match (rr_name a) (rr_type a) c = false).
  { intros x Ix. apply filter_In in Ix as [_ S]. unfold survives in S. apply andb_true_iff in S as [_ S]. destruct (c_match _ _ x); [discriminate|reflexivity]. }
  assert (X : existsb (holds_rr a) l1 = false).
  { destruct (existsb (holds_rr a) l1) eqn:X; [|reflexivity]. apply existsb_exists in X as (y & Iy & My). apply a_match_c_match in My. rewrite (F y Iy) in My. discriminate. }
  unfold withdrawn in I. rewrite X in I. destruct (rr_ttl a =? 0) eqn:T0; [rewrite (F c I) in M; discriminate|].
  destruct (cache_answer_ok a (now + rr_ttl a / 2 + 8) from W) as (b & E & K1 & _). rewrite E in I. destruct I as [<-|I]; [split; [lia|exact K1]|]. rewrite (F c I) in M. discriminate.
Qed.

Definition hits (cls : Z) (a : resource) (c : cached) : bool :=
  (rr_class a =? 32768 + cls) && c_match (rr_name a) (rr_type a) c || (rr_ttl a =? 0) && holds_rr a c.

Lemma cached_in_keeps : forall id now cls a from o l c, wf_resource a -> In c l -> alive now c = true -> hits cls a c = false ->
  exists c', In c' (cached_in id now cls a from o l) /\ c_id c' = c_id c /\ akey (c_rr c') = akey (c_rr c) /\ alive now c' = true.
Proof.
  intros id now cls a from o l c W I Al Hi. unfold hits in Hi. apply orb_false_iff in Hi as [H1 H2]. unfold cached_in. cbv zeta. set (l1 := flushed _ _ _ _ l).
  assert (I1 : In c l1).
  { unfold l1, flushed. destruct (rr_class a =? 32768 + cls); [|exact I]. apply filter_In. split; [exact I|]. unfold survives. rewrite Al. cbn [andb] in H1. rewrite H1. reflexivity. }
  destruct (rr_ttl a =? 0) eqn:T0.
  - exists c. split; [|auto]. unfold withdrawn. destruct (existsb (holds_rr a) l1); [|exact I1]. apply filter_In. split; [exact I1|]. unfold survives. rewrite Al. cbn [andb] in H2. rewrite H2. reflexivity.
  - destruct (existsb (holds_rr a) l1).
    + unfold refreshed. exists (if holds_rr a c then set_cttl c (now + rr_ttl a / 2 + 8) else c). split; [apply (in_map (fun x => if holds_rr a x then set_cttl x (now + rr_ttl a / 2 + 8) else x)); exact I1|].
      destruct (holds_rr a c); [|auto]. split; [reflexivity|]. split; [reflexivity|]. unfold alive. cbn [set_cttl c_rr set_ttl a_ttl].
      destruct W as (W0 & _). pose proof (Z.div_pos (rr_ttl a) 2 W0 ltac:(lia)). lia.
    + exists c. split; [|auto]. destruct (cache_answer a _ from); [right; exact I1|exact I1].
Qed.

Lemma responses_keep : forall an d e from did qs, rinv (R d) qs -> qinv (Q d) -> 0 <= fst (now d) -> Forall wf_resource an -> (did = true -> ifs d = view d e) ->
  forall i c, In c (centries (Q d) i) -> alive (fst (now d)) c = true -> (forall a, In a an -> hits (class d) a c = false) ->
  forall d', responses d e from did an = Ok d' -> exists c', In c' (centries (Q d') i) /\ c_id c' = c_id c /\ akey (c_rr c') = akey (c_rr c).
Proof.
  induction an as [|a an IH]; intros d e from did qs H Hq N W D i c I Al Hi d' E.
  - cbn [responses] in E. injection E as <-. exists c. auto.
  - apply Forall_cons_iff in W as [Wa W].
    destruct (response_spec d e from did a an qs H Hq N Wa D) as (s1 & q1 & i1 & tm1 & L1 & did1 & qs1 & T1 & E1 & Ii & Di & H1 & Hq1 & _ & _ & Y).
    rewrite E1 in E. set (d1 := heard d s1 q1 i1 tm1 (received d ++ L1)) in *.
    assert (V1 : view d1 e = view d e).
    { unfold view, d1. destruct (e_ifs e) as [l|] eqn:Ee; [reflexivity|]. cbn [heard ifs]. destruct Ii as [->| ->]; [reflexivity|]. unfold view. rewrite Ee. reflexivity. }
    assert (D1 : did1 = true -> ifs d1 = view d1 e) by (intros K; rewrite V1; apply Di; exact K).
    assert (G : exists c1, In c1 (centries q1 i) /\ c_id c1 = c_id c /\ akey (c_rr c1) = akey (c_rr c) /\ alive (fst (now d)) c1 = true).
    { destruct (is_me d e from && _); [destruct Y as (-> & _); exists c; auto|]. destruct Y as (_ & o & id & F & O & _). destruct (Nat.eq_dec i (cbucket (rr_name a))) as [->|Ni].
      - destruct (cached_in_keeps id (fst (now d)) (class d) a from o _ c Wa I Al (Hi a (or_introl eq_refl))) as (c1 & I1 & K1 & K2 & K3).
        destruct (Forall2_in_l _ _ _ _ _ _ F I1) as (c2 & I2 & R1 & R2 & _). exists c2. split; [exact I2|]. unfold alive in *. rewrite R1, R2. auto.
      - destruct (Forall2_in_l _ _ _ _ _ _ (O i Ni) I) as (c2 & I2 & R1 & R2 & _). exists c2. split; [exact I2|]. unfold alive in *. rewrite R1, R2. auto. }
    destruct G as (c1 & I1 & K1 & K2 & K3).
    destruct (IH d1 e from did1 qs1 H1 Hq1 N W D1 i c1 I1 K3) with (d' := d') as (c2 & I2 & J1 & J2); [|exact E|exists c2; split; [exact I2|split; congruence]].
    intros b Ib. rewrite <- (Hi b (or_intror Ib)). change (class d1) with (class d). unfold hits, c_match, holds_rr. f_equal.
    + f_equal. unfold akey in K2. assert (a_name (c_rr c1) = a_name (c_rr c)) as -> by congruence. assert (a_type (c_rr c1) = a_type (c_rr c)) as -> by congruence. reflexivity.
    + f_equal. pose proof (proj1 (Forall_forall _ _) W b Ib) as Wb. destruct (a_match b (c_rr c)) eqn:M.
      * apply (a_match_key _ _ Wb). rewrite K2. apply (a_match_key _ _ Wb). exact M.
      * destruct (a_match b (c_rr c1)) eqn:M1; [|reflexivity]. apply (a_match_key _ _ Wb) in M1. rewrite K2 in M1. apply (a_match_key _ _ Wb) in M1. congruence.
Qed.

(* The state a response leads to *)
Lemma response_enters : forall d e m from d' x, reach d -> legal d e (OIn m from) -> is_shutdown d = false -> foreign d e from -> h_qr (m_header m) <> 0 ->
  step d e (OIn m from) = Ok (d', x) -> exists qs d1, rinv (R d1) qs /\ qinv (Q d1) /\ Q d1 = Q d /\ now d1 = e_now e /\ class d1 = class d /\ is_me d1 e from = false /\
    responses d1 e from false (m_an m) = Ok d'.
Proof.
  intros d e m from d' x K [N W] Sd F Qr E. destruct (reach_dinv d K) as (qs & H & C1 & _). destruct (in_enters d e m from Sd F) as (i & tm & I & Ei). cbv zeta in Ei.
  replace (h_qr (m_header m) =? 0) with false in Ei by lia. cbn [step] in E. rewrite Ei in E. apply bind_ok in E as ([d2 n] & E & E'). injection E' as <- _. apply bind_ok in E as (d3 & E & E'). injection E' as <- _.
  exists qs. eexists. split; [|split; [|split; [|split; [|split; [|split; [|exact E]]]]]]; try reflexivity; [exact H|exact C1|exact (into_foreign d e from i tm F I)].
Qed.

(* What one answer makes of the cache, whatever follows it *)
Lemma answer_effect : forall d e m from d' x pre a post, reach d -> legal d e (OIn m from) -> is_shutdown d = false -> foreign d e from -> h_qr (m_header m) <> 0 ->
  m_an m = pre ++ a :: post -> step d e (OIn m from) = Ok (d', x) -> forall c, cache_holds d' c ->
  (exists b, In b post /\ rr_ttl b <> 0 /\ same_rr b (c_rr c)) \/
  ((rr_ttl a = 0 -> ~ same_rr a (c_rr c)) /\ (flushes d a (c_rr c) -> rr_ttl a <> 0 /\ same_rr a (c_rr c))).
Proof.
  intros d e m from d' x pre a post K L Sd F Qr Em E c Hc. pose proof (reach_step _ _ _ _ _ K L E) as K'.
  destruct (response_enters d e m from d' x K L Sd F Qr E) as (qs & d1 & H1 & Hq1 & EQ & En & Ec & Me & Er). destruct L as [N W].
  unfold wf_message in W. rewrite Em in W, Er. apply Forall_app in W as [Wp W]. apply Forall_cons_iff in W as [Wa Wq].
  destruct (responses_split pre (a :: post) d1 e from false qs H1 Hq1 ltac:(rewrite En; exact N) Wp ltac:(discriminate)) as (d2 & did2 & qs2 & E2 & H2 & Hq2 & En2 & Ec2 & D2 & Me2).
  rewrite E2 in Er. rewrite Me in Me2. assert (N2 : 0 <= fst (now d2)) by (rewrite En2, En; exact N).
  destruct (response_spec d2 e from did2 a post qs2 H2 Hq2 N2 Wa D2) as (s3 & q3 & i3 & tm3 & L3 & did3 & qs3 & T3 & E3 & Ii3 & Di3 & H3 & Hq3 & _ & _ & Y).
  rewrite Me2 in Y. cbn [andb] in Y. destruct Y as (_ & o & id & Fa & Fo & _). rewrite E3 in Er.
  set (d3 := heard d2 s3 q3 i3 tm3 (received d2 ++ L3)) in *.
  assert (V1 : view d3 e = view d2 e).
  { unfold view, d3. destruct (e_ifs e) as [l|] eqn:Ee; [reflexivity|]. cbn [heard ifs]. destruct Ii3 as [->| ->]; [reflexivity|]. unfold view. rewrite Ee. reflexivity. }
  assert (D3 : did3 = true -> ifs d3 = view d3 e) by (intros B; rewrite V1; apply Di3; exact B).
  destruct (responses_sound post d3 e from did3 qs3 H3 Hq3 N2 Wq D3) as (s' & q' & i' & tm' & L' & qs4 & T & Cf & E4 & _ & _ & _ & _ & _ & _ & _ & _ & _ & _ & Ca & _).
  rewrite Er in E4. injection E4 as ->. apply (holds_bucket _ _ K') in Hc as (j & Ij). cbn [heard Q] in Ij.
  destruct (Ca j c Ij) as [(c3 & I3 & _ & R3 & _)|(b & Ib & Tb & Kb & _)].
  - right. cbn [d3 heard Q] in I3. destruct (Nat.eq_dec j (cbucket (rr_name a))) as [->|Nj].
    + destruct (Forall2_in_r _ _ _ _ _ _ Fa I3) as (c2 & I2 & _ & R2 & _). rewrite R3, R2. split.
      * intros T0 S. apply (a_match_iff _ _ Wa) in S. pose proof (cached_in_bye _ _ _ _ _ _ _ _ Wa T0 I2) as B. unfold holds_rr in B. congruence.
      * intros (B1 & B2 & B3). assert (M : c_match (rr_name a) (rr_type a) c2 = true) by (apply c_match_iff; auto).
        assert (Cl : rr_class a = 32768 + class d2) by (rewrite Ec2, Ec; lia).
        destruct (cached_in_flush _ _ _ _ _ _ _ _ Wa Cl I2 M) as [G1 G2]. split; [exact G1|]. apply rkey_iff; assumption.
    + assert (Nn : rr_name a <> a_name (c_rr c)).
      { intros B. apply Nj. rewrite B, R3. symmetry. exact (qi_cbucket _ Hq3 j c3 I3). }
      split; [intros _ (S & _); contradiction|]. intros (_ & B & _). contradiction.
  - left. exists b. split; [exact Ib|]. split; [exact Tb|]. apply rkey_iff; [|exact Kb]. exact (proj1 (Forall_forall _ _) Wq b Ib).
Qed.

Lemma spared : forall d e m from d' x, reach d -> legal d e (OIn m from) -> is_shutdown d = false -> foreign d e from -> h_qr (m_header m) <> 0 ->
  step d e (OIn m from) = Ok (d', x) -> forall c, cache_holds d c -> fst (e_now e) < a_ttl (c_rr c) ->
  (forall a, In a (m_an m) -> ~ says_bye a (c_rr c) /\ ~ flushes d a (c_rr c)) -> exists c', cache_holds d' c' /\ c_id c' = c_id c /\ same_content (c_rr c') (c_rr c).
Proof.
  intros d e m from d' x K L Sd F Qr E c Hc Al No. pose proof (reach_step _ _ _ _ _ K L E) as K'.
  destruct (response_enters d e m from d' x K L Sd F Qr E) as (qs & d1 & H1 & Hq1 & EQ & En & Ec & Me & Er). destruct L as [N W].
  apply (holds_bucket _ _ K) in Hc as (i & Ii).
  destruct (responses_keep (m_an m) d1 e from false qs H1 Hq1 ltac:(rewrite En; exact N) W ltac:(discriminate) i c ltac:(rewrite EQ; exact Ii)) with (d' := d') as (c' & I' & J1 & J2).
  - unfold alive. rewrite En. lia.
  - intros a Ia. pose proof (proj1 (Forall_forall _ _) W a Ia) as Wa. destruct (No a Ia) as [A1 A2]. unfold hits. apply orb_false_iff. split.
    + destruct (rr_class a =? 32768 + class d1) eqn:Cl; [|reflexivity]. cbn [andb]. destruct (c_match (rr_name a) (rr_type a) c) eqn:M; [|reflexivity]. exfalso. apply A2. apply c_match_iff in M as [M1 M2].
      split; [rewrite <- Ec; lia|]. split; [congruence|tauto].
    + destruct (rr_ttl a =? 0) eqn:T0; [|reflexivity]. cbn [andb]. unfold holds_rr. destruct (a_match a (c_rr c)) eqn:M; [|reflexivity]. exfalso. apply A1. split; [lia|]. apply a_match_iff; assumption.
  - exact Er.
  - exists c'. split; [apply (holds_bucket _ _ K'); eauto|]. split; [exact J1|]. apply akey_iff. exact J2.
Qed.

(* ------------------------------------------------------------------ *)
(* C44 *)

Lemma zlen_pos : forall (A : Type) (l : list A), l <> [] -> zlen l <> 0.
Proof. intros A [|x l] N; [congruence|]. rewrite zlen_cons. pose proof (zlen_nonneg _ l). lia. Qed.

Lemma sweep_clears : forall d e d' m, reach d -> legal d e OOut -> is_shutdown d = false -> expireall d < fst (e_now e) ->
  step d e OOut = Ok (d', RMsg m 0) -> forall c, cache_holds d' c -> fst (e_now e) < a_ttl (c_rr c).
Proof.
  intros d e d' m K L Sd X E c Hc. pose proof (reach_step _ _ _ _ _ K L E) as K'. apply (holds_bucket _ _ K') in Hc as (i & I).
  destruct (out_cases d e d' m 0 K L E) as (qs & qs' & _ & _ & O & _). remember 0 as n eqn:En.
  destruct O as [u us X0 added Eu EX G|N restN P restP s' Eu Sd0 E1 E2 Dp A Ua Cf Bl|N restN P restP A restA s' added all seen Eu Sd0 D Eall Nall Eseen Af Ua Tp Tb Cf Tq G|N restN A restA s' l Eu Sd0 D E1 E2 El La Af Ua Cf Tp Tb Tq|N restN A restA s' q1 q' l m ret T V Eu Sd0 D E1 E2 El La Af Ua Cf Tp Tb Tq QO Ql Sh Zq Uq CK TO G].
  - discriminate.
  - congruence.
  - exfalso. exact (zlen_pos _ _ Nall En).
  - exfalso. exact (zlen_pos _ _ La En).
  - exact (G X i c I).
Qed.

(* ------------------------------------------------------------------ *)
(* C46 *)

Lemma query_silent : forall d e host type answer d' x, reach d -> legal d e (OQuery host type answer) -> step d e (OQuery host type answer) = Ok (d', x) -> told (Q d') = told (Q d).
Proof.
  intros d e host type answer d' x K L E. destruct (reach_dinv d K) as (qs & H & C1 & _). cbn [step] in E.
  destruct (mdnsd_query_spec (Q d) (fst (now d)) host type answer C1) as (q' & o & E' & _ & _ & _ & _ & F1 & F2 & _). rewrite E' in E. injection E as <- _. exact F2.
Qed.

(* ------------------------------------------------------------------ *)
(* C48 *)

Lemma is_question_iff : forall n ty i, is_question n ty i = true <-> exists cls, i = IQuestion n ty cls.
Proof.
  intros n ty i. destruct i as [n' ty' cls|sec n' ty' cls ttl data]; cbn [is_question].
  - rewrite andb_true_iff, bytes_eqb_eq, Z.eqb_eq. split; [intros [-> ->]; eauto|]. intros (c & E). injection E as -> -> _. auto.
  - split; [discriminate|]. intros (c & E). discriminate.
Qed.
Lemma queries_at_iff : forall s l x, In x (queries_at s l) <-> exists q, In q l /\ qh s q = Some x.
Proof.
  intros s l x. unfold queries_at. rewrite in_flat_map. split; intros (q & I & E); exists q; (split; [exact I|]).
  - destruct (qh s q) as [y|]; [|destruct E]. destruct E as [->|[]]. reflexivity.
  - rewrite E. left. reflexivity.
Qed.

(* Not probing for this name *)

Lemma out_turn : forall d e d' m k n ty, reach d -> legal d e OOut -> step d e OOut = Ok (d', RMsg m k) -> not_probing d n ->
  let ev := mkevent d e OOut (RMsg m k) d' in
  (asks_for n ty ev = true -> exists q x, qh (Q d) q = Some x /\ is_for x n ty /\ QryLoop.asks (fst (e_now e)) x = true) /\
  forall q x', qh (Q d') q = Some x' -> exists x, qh (Q d) q = Some x /\
    (x' = after_turn (Q d) (fst (e_now e)) x /\ (is_for x n ty -> QryLoop.asks (fst (e_now e)) x = true -> asks_for n ty ev = true) \/ x' = x /\ asks_for n ty ev = false).
Proof.
  intros d e d' m k n ty K L E NP ev. destruct (out_cases d e d' m k K L E) as (qs & qs' & H & C & O & _). destruct C as (C1 & C2 & C3 & C4).
  unfold ev, asks_for. cbn [ev_call ev_result]. clear ev E.
  destruct O as [u us X0 added Eu EX G|N restN P restP s' Eu Sd0 E1 E2 Dp A Ua Cf Bl|N restN P restP A restA s' added all seen Eu Sd0 D Eall Nall Eseen Af Ua Tp Tb Cf Tq G|N restN A restA s' l Eu Sd0 D E1 E2 El La Af Ua Cf Tp Tb Tq|N restN A restA s' q1 q' l m ret T V Eu Sd0 D E1 E2 El La Af Ua Cf Tp Tb Tq QO Ql Sh Zq Uq CK TO G];
    cbn [o_qr o_calls negb andb].
  1-3: (split; [discriminate|]; intros q x' Ex; exists x'; split; [exact Ex|right; auto]).
  - assert (Z0 : existsb (is_question n ty) (items (OutProbe.asks (class d) (hp (R d)) l ++ flat_map (at_rec (hp (R d)) (fun X => if probed X then [] else tell_calls (class d) X)) l)) = false).
    { destruct (existsb _ _) eqn:B; [|reflexivity]. exfalso. apply existsb_exists in B as (i & I & B). apply is_question_iff in B as (cls & ->). rewrite items_probe in I. apply in_app_or in I as [I|I].
      - apply in_flat_map in I as (r & Ir & I). unfold at_rec in I. destruct (hp (R d) r) as [X|] eqn:EX; [|destruct I].
        assert (Wr : waits d Probing r). { apply (waits_iff d qs Probing r H). subst l. unfold probe_due in Ir. destruct (_ <=? 0); [exact Ir|destruct Ir]. }
        destruct (probed X); cbn [In] in I; try (destruct I; fail). destruct I as [I|[]]. injection I as I _ _. exact (NP r X EX I Wr).
      - apply in_flat_map in I as (r & Ir & I). unfold at_rec in I. destruct (hp (R d) r) as [X|]; [|destruct I]. destruct (probed X); [destruct I|]. destruct I as [I|[]]; discriminate. }
    rewrite Z0. split; [discriminate|]. intros q x' Ex. exists x'. split; [exact Ex|]. right. auto.
  - unfold queries_out in QO. destruct (negb (checkq (Q d) =? 0) && (checkq (Q d) <=? fst (e_now e))).
    + destruct QO as (Q1 & (ks & Em & Ka) & _). assert (B : existsb (is_question n ty) (items m) = true <-> exists q x, qh (Q d) q = Some x /\ is_for x n ty /\ QryLoop.asks (fst (e_now e)) x = true).
      { rewrite Em, items_query, existsb_app, orb_true_iff, !existsb_exists. split.
        - intros [(i & I & B)|(i & I & B)]; apply is_question_iff in B as (cls & ->).
          + apply in_map_iff in I as (x & Ex & I). injection Ex as A1 A2 _. apply filter_In in I as [I As]. apply queries_at_iff in I as (q & _ & Eq). exists q, x. split; [exact Eq|]. split; [split; assumption|exact As].
          + apply in_map_iff in I as (x & Ex & _). discriminate.
        - intros (q & x & Eq & [F1 F2] & As). left. exists (IQuestion n ty (class d)). split; [|apply is_question_iff; eauto]. apply in_map_iff. exists x. split; [rewrite F1, F2; reflexivity|].
          apply filter_In. split; [|exact As]. apply queries_at_iff. exists q. split; [apply (qi_live _ C1); congruence|exact Eq]. }
      split; [apply B|]. intros q x' Ex. apply (sh_qh _ _ _ _ Sh) in Ex. rewrite Q1 in Ex. destruct (qh (Q d) q) as [x|] eqn:Eq; [|discriminate]. injection Ex as <-. exists x. split; [reflexivity|]. left. split; [reflexivity|].
      intros F As. apply B. eauto.
    + destruct QO as (Em & _ & Q1 & _). rewrite Em. cbn [items existsb]. split; [discriminate|]. intros q x' Ex. apply (sh_qh _ _ _ _ Sh) in Ex. rewrite Q1 in Ex. exists x'. split; [exact Ex|]. right. auto.
Qed.

Lemma other_turn : forall d e o d' x, o <> OOut -> reach d -> legal d e o -> step d e o = Ok (d', x) -> forall q y, qh (Q d') q = Some y ->
  (exists y0, qh (Q d) q = Some y0 /\ q_nm y = q_nm y0 /\ q_ty y = q_ty y0 /\ q_next y = q_next y0 /\ q_tries y = q_tries y0) \/
  (exists cb, o = OQuery (q_nm y) (q_ty y) (Some cb) /\ y = mkquery (q_nm y) (q_ty y) (fst (now d)) 0 cb).
Proof.
  intros d e o d' x No K L E q y Ey. destruct (records_only o) eqn:Ro.
  { destruct (records_only_Q d e o d' x Ro E) as [Eq _]. rewrite Eq in Ey. left. eauto 10. }
  destruct (reach_dinv d K) as (qs & H & C). destruct o; try discriminate; try contradiction; destruct L as [N L]; cbn [step] in E.
  - destruct C as (C1 & _). destruct (mdnsd_query_spec (Q d) (fst (now d)) host type answer C1) as (q' & o & E' & _ & Qf & Qe & _). rewrite E' in E. injection E as <- _. cbn [with_Q Q] in Ey.
    unfold query_effect in Qe. destruct o as [p|], answer as [cb|].
    + destruct Qe as (z & Ez & Ez' & Oth & _). destruct (Nat.eq_dec q p) as [->|D]; [|rewrite (Oth q D) in Ey; left; eauto 10]. rewrite Ez' in Ey. injection Ey as <-. left. exists z. auto.
    + destruct Qe as (Ez & Oth & _). destruct (Nat.eq_dec q p) as [->|D]; [congruence|rewrite (Oth q D) in Ey; left; eauto 10].
    + destruct Qe as (Ez & Oth & _). destruct (Nat.eq_dec q (qfresh (Q d))) as [->|D]; [|rewrite (Oth q D) in Ey; left; eauto 10]. rewrite Ez in Ey. injection Ey as <-. right. exists cb. auto.
    + rewrite Qe in Ey. left. eauto 10.
  - destruct (mdnsd_in_spec d e m from qs H C N L) as (d2 & n & qs' & E' & A & _). rewrite E' in E. injection E as <- _. destruct C as (C1 & _). left.
    destruct A as [?|i tm|i0 tm0 d' qs' ? ? ? ? E|i0 tm0 d' qs' ? ? ? Qr E]; [eauto 10|eauto 10| |].
    + set (d1 := into (with_now d (e_now e)) (R d) i0 tm0 (received d)) in *.
      destruct (questions_sound (m_qd m) d1 e from false (m_id m) (m_an m) qs H ltac:(discriminate)) as (s' & i' & tm' & L' & b & qs2 & Cf & E2 & _).
      rewrite E in E2. injection E2 as ->. exists y. auto.
    + set (d1 := into (with_now d (e_now e)) (R d) i0 tm0 (received d)) in *.
      destruct (responses_sound (m_an m) d1 e from false qs H C1 N L ltac:(discriminate)) as (s' & q' & i' & tm' & L' & qs2 & T & Cf & E2 & _ & _ & _ & Sh & _).
      rewrite E in E2. injection E2 as ->. apply (sh_qh _ _ _ _ Sh) in Ey. exists y. auto.
  - apply bind_ok in E as ([d2 t] & E' & E). injection E as <- _. rewrite (sleep_Q _ _ _ _ E') in Ey. left. eauto 10.
Qed.

Lemma reset_none : forall n ty l, (forall c, In c l -> c_match n ty c = false) -> reset_try n ty l = 0.
Proof.
  intros n ty l M. unfold reset_try. induction l as [|c l IH]; [reflexivity|]. cbn [fold_left]. rewrite (M c (or_introl eq_refl)). apply IH. intros x I. apply M. right. exact I.
Qed.

(* The query is as its askings say *)
Definition paced (t0 : Z) (T : list Z) (x : query) : Prop :=
  q_next x = 0 \/ (Z.of_nat (length T) = q_tries x /\ q_next x = match rev T with [] => t0 | t :: _ => t + q_tries x end).

Lemma thrice_more : forall t0 T x t, thrice T -> paced t0 T x -> QryLoop.asks t x = true -> thrice (T ++ [t]) /\ paced t0 (T ++ [t]) (set_qnext x (t + (q_tries x + 1)) (q_tries x + 1)).
Proof.
  intros t0 T x t H P A. unfold QryLoop.asks in A. destruct P as [P|[P1 P2]]; [lia|]. split.
  - destruct T as [|t1 [|t2 [|t3 [|t4 T]]]]; cbn [thrice app] in *; cbn [rev app length] in *; try tauto; lia.
  - right. cbn [set_qnext q_tries q_next]. rewrite app_length, rev_unit. cbn [length]. split; lia.
Qed.

Lemma asked_thrice : forall t0 d0 n ty l d, reach d0 -> (forall q x, qh (Q d0) q = Some x -> is_for x n ty -> q_tries x = 0 /\ q_next x = t0) ->
  history d0 l d ->
  (forall ev, In ev l -> (forall cb, ev_call ev <> OQuery n ty (Some cb)) /\ not_probing (ev_before ev) n /\
     forall c, cache_holds (ev_before ev) c -> ~ (a_name (c_rr c) = n /\ (a_type (c_rr c) = ty \/ ty = QTYPE_ANY))) ->
  thrice (askings n ty l) /\ forall q x, qh (Q d) q = Some x -> is_for x n ty -> paced t0 (askings n ty l) x.
Proof.
  intros t0 d0 n ty l d K0 Z0 Hh. induction Hh as [|l d e o out d' Hh IH L E]; intros A.
  - split; [exact I|]. intros q x E F. right. destruct (Z0 q x E F) as [-> ->]. auto.
  - pose proof (history_reach _ _ _ K0 Hh) as K. destruct (reach_dinv d K) as (qs & _ & (C1 & C2 & _)).
    destruct IH as [IH1 IH2]. { intros ev I. apply A. apply in_or_app. left. exact I. }
    destruct (A (mkevent d e o out d') ltac:(apply in_or_app; right; left; reflexivity)) as (A1 & A2 & A3). cbn [ev_call ev_before] in A1, A2, A3. clear A.
    unfold askings. rewrite filter_app, map_app. fold (askings n ty l). cbn [filter].
    assert (Dec : o = OOut \/ o <> OOut) by (destruct o; (left; reflexivity) || (right; discriminate)). destruct Dec as [->|No].
    + cbn [step] in E. apply bind_ok in E as ([[d2 m] k] & E' & E). injection E as <- <-.
      assert (E : step d e OOut = Ok (d2, RMsg m k)) by (cbn [step]; rewrite E'; reflexivity). clear E'.
      destruct (out_turn d e d2 m k n ty K L E A2) as [T1 T2]. cbv zeta in T1, T2. set (ev := mkevent d e OOut (RMsg m k) d2) in *.
      destruct (asks_for n ty ev) eqn:Af; cbn [map ev_env ev].
      * destruct (T1 eq_refl) as (q & x & Eq & Fx & As). destruct (thrice_more t0 _ x (fst (e_now e)) IH1 (IH2 q x Eq Fx) As) as [G1 G2]. split; [exact G1|].
        intros q' x' Eq' Fx'. destruct (T2 q' x' Eq') as (y & Ey & [[-> _]|[_ B]]); [|discriminate]. assert (Fy : is_for y n ty).
        { unfold after_turn in Fx'. destruct (QryLoop.asks _ y); [exact Fx'|]. destruct (rests _ y); exact Fx'. }
        assert (q' = q). { destruct Fx, Fy. apply (qi_one _ C1 q' q y x Ey Eq); congruence. } subst q'. assert (y = x) by congruence. subst y. unfold after_turn. rewrite As. exact G2.
      * rewrite app_nil_r. split; [exact IH1|]. intros q' x' Eq' Fx'. destruct (T2 q' x' Eq') as (y & Ey & [[-> B]|[-> _]]); [|exact (IH2 q' y Ey Fx')]. unfold after_turn in *.
        destruct (QryLoop.asks (fst (e_now e)) y) eqn:As; [discriminate (B Fx' eq_refl)|]. destruct (rests (fst (e_now e)) y); [|exact (IH2 q' y Ey Fx')].
        left. cbn [set_qnext q_next]. apply reset_none. intros c I. apply filter_In in I as [I _]. destruct (c_match (q_nm y) (q_ty y) c) eqn:M; [|reflexivity]. exfalso. apply c_match_iff in M as [M1 M2].
        destruct Fx' as [F1 F2]. cbn [set_qnext q_nm q_ty] in F1, F2. apply (A3 c); [apply (holds_bucket _ _ K); eauto|]. split; [congruence|]. rewrite F2 in M2. destruct M2; auto.
    + assert (Nf : asks_for n ty (mkevent d e o out d') = false) by (unfold asks_for; cbn [ev_call ev_result]; destruct o; try reflexivity; contradiction).
      rewrite Nf. cbn [map]. rewrite app_nil_r. split; [exact IH1|]. intros q x Ex [F1 F2]. destruct (other_turn d e o d' out No K L E q x Ex) as [(y & Ey & B1 & B2 & B3 & B4)|(cb & B & _)].
      * destruct (IH2 q y Ey ltac:(split; congruence)) as [P|[P1 P2]]; [left; congruence|right]. rewrite B3, B4. auto.
      * exfalso. apply (A1 cb). rewrite <- F1, <- F2. exact B.
Qed.

Lemma new_query_asked : forall d0 e0 n ty cb d1 x0 l d, reach d0 -> legal d0 e0 (OQuery n ty (Some cb)) -> (forall x, registered d0 x -> ~ is_for x n ty) ->
  step d0 e0 (OQuery n ty (Some cb)) = Ok (d1, x0) -> history d1 l d ->
  (forall ev, In ev l -> (forall cb, ev_call ev <> OQuery n ty (Some cb)) /\ not_probing (ev_before ev) n /\
     forall c, cache_holds (ev_before ev) c -> ~ (a_name (c_rr c) = n /\ (a_type (c_rr c) = ty \/ ty = QTYPE_ANY))) ->
  thrice (askings n ty l).
Proof.
  intros d0 e0 n ty cb d1 x0 l d K L Nr E Hh A. destruct (asked_thrice (fst (now d0)) d1 n ty l d (reach_step _ _ _ _ _ K L E)) as [G _]; [|exact Hh|exact A|exact G].
  intros q x Ex F. destruct (other_turn d0 e0 (OQuery n ty (Some cb)) d1 x0 ltac:(discriminate) K L E q x Ex) as [(y & Ey & B1 & B2 & _)|(cb' & B & ->)]; [|auto].
  exfalso. destruct (reach_dinv d0 K) as (qs & _ & (C1 & _)). apply (Nr y); [exists q; split; [apply (qi_live _ C1); congruence|exact Ey]|]. destruct F. split; congruence.
Qed.
