(* Callbacks that register and remove queries keep the invariant. *)
From Verif Require Import Base Lemmas Hash HashProofs XhtProofs Wire Rec Qry Out In Api Reent RecInv RecSafe RecOps OutSafe QryInv QryOps CacheOps QryReg QryLoop.

Lemma csame_refl : forall c, csame c c.
Proof. split; reflexivity. Qed.
Lemma csame_trans : forall a b c, csame a b -> csame b c -> csame a c.
Proof. intros a b c [A1 A2] [B1 B2]. split; congruence. Qed.
Lemma map_id_csame : forall l l', Forall2 csame l l' -> map c_id l' = map c_id l.
Proof. intros l l' F. apply (Forall2_map_same _ _ c_id csame); [intros x y K; apply K|exact F]. Qed.
Lemma filter_csame : forall now l l', Forall2 csame l l' -> Forall2 csame (filter (alive now) l) (filter (alive now) l').
Proof.
  intros now l l' F. induction F as [|x y l l' P F IH]; [constructor|]. cbn [filter].
  assert (E : alive now y = alive now x) by (destruct P as (_ & P); unfold alive; rewrite P; reflexivity).
  rewrite E. destruct (alive now x); [constructor; assumption|exact IH].
Qed.

(* A call that registers a query (or changes its callback) *)
Definition registers (c : qcall) : Prop := snd c <> None.

(* Queries only come *)
Record grown (s s' : qrys) : Prop := mkgrown {
  gr_qh : forall q x, qh s q = Some x -> exists y, qh s' q = Some y /\ q_nm y = q_nm x /\ q_ty y = q_ty x /\ q_next y = q_next x /\ q_tries y = q_tries x;
  gr_list : exists pre, qlist s' = pre ++ qlist s
}.
Lemma grown_refl : forall s, grown s s.
Proof. intros s. split; [intros q x E; exists x; auto|exists []; reflexivity]. Qed.
Lemma grown_trans : forall a b c, grown a b -> grown b c -> grown a c.
Proof.
  intros a b c [A1 (p & A2)] [B1 (p' & B2)]. split.
  - intros q x E. destruct (A1 q x E) as (y & Ey & K1 & K2 & K3 & K4). destruct (B1 q y Ey) as (z & Ez & L1 & L2 & L3 & L4). exists z.
    repeat (split; [congruence|]). congruence.
  - exists (p' ++ p). rewrite B2, A2. apply app_assoc.
Qed.
Lemma grown_ext : forall s s', qh s' = qh s -> qlist s' = qlist s -> grown s s'.
Proof. intros s s' E1 E2. split; [intros q x E; exists x; rewrite E1; auto|exists []; rewrite E2; reflexivity]. Qed.

(* The same record; and a query, if it had one *)
Definition cown (c c' : cached) : Prop := csame c c' /\ (c_q c <> None -> c_q c' <> None).
Lemma cown_refl : forall c, cown c c.
Proof. split; [apply csame_refl|auto]. Qed.
Lemma cown_trans : forall a b c, cown a b -> cown b c -> cown a c.
Proof. intros a b c [A1 A2] [B1 B2]. split; [eapply csame_trans; eauto|auto]. Qed.

Lemma q_reset_cache : forall s q s', q_reset s q = Ok s' -> cache s' = cache s.
Proof.
  intros s q s' E. unfold q_reset in E. destruct (qget s q) as [x| | |]; cbn [bind] in E; try discriminate. cbv zeta in E.
  destruct (negb _ && _) in E; injection E as <-; reflexivity.
Qed.

Lemma query_registers : forall s now host type cb s', qinv s -> mdnsd_query s now host type (Some cb) = Ok s' ->
  (forall i, Forall2 cown (centries s i) (centries s' i)).
Proof.
  intros s now host type cb s' H E i. unfold mdnsd_query in E. destruct (q_find s host type) as [o| | |]; cbn [bind] in E; try discriminate.
  destruct o as [q|].
  - destruct (qget s q) as [x| | |]; cbn [bind] in E; try discriminate. injection E as <-. apply Forall2_refl'. apply cown_refl.
  - cbv zeta in E. set (x := mkquery host type 0 0 cb) in *.
    match type of E with context [q_reset ?z ?q] => change z with (link_query s x) in E; destruct (q_reset (link_query s x) q) as [s2| | |] eqn:E2; cbn [bind] in E; try discriminate end.
    destruct (qget s2 (qfresh s)) as [y| | |]; cbn [bind] in E; try discriminate. injection E as <-. unfold centries. cbn [set_checkq qset set_qh cache].
    rewrite (q_reset_cache _ _ _ E2). cbn [link_query cache]. fold (centries s i). change (q_nm x) with host. change (q_ty x) with type.
    destruct (Nat.eq_dec i (cbucket host)) as [->|D].
    + rewrite nth_upd_same by (rewrite (qi_clen _ H); apply cbucket_lt). apply Forall2_map_r. intros c _. destruct (c_match host type c); [|apply cown_refl].
      split; [split; reflexivity|]. cbn [set_cq c_q]. discriminate.
    + rewrite nth_upd_other by congruence. apply Forall2_refl'. apply cown_refl.
Qed.

Lemma query_num : forall s s' now host type answer o, 0 <= now -> query_effect s s' now host type answer o -> qnum s -> qnum s'.
Proof.
  intros s s' now host type answer o N E Qn. destruct o as [q|], answer as [cb|]; cbn [query_effect] in E.
  - destruct E as (x & Ex & Ex' & Eo & _). intros p y Ey. destruct (Nat.eq_dec p q) as [->|D]; [|rewrite Eo in Ey by exact D; exact (Qn p y Ey)].
    rewrite Ex' in Ey. injection Ey as <-. exact (Qn q x Ex).
  - destruct E as (E1 & Eo & _). intros p y Ey. destruct (Nat.eq_dec p q) as [->|D]; [congruence|]. rewrite Eo in Ey by exact D. exact (Qn p y Ey).
  - destruct E as (E1 & Eo & _). intros p y Ey. destruct (Nat.eq_dec p (qfresh s)) as [->|D]; [|rewrite Eo in Ey by exact D; exact (Qn p y Ey)].
    rewrite E1 in Ey. injection Ey as <-. cbn [q_tries q_next]. lia.
  - subst s'. exact Qn.
Qed.

Lemma query_grown : forall s s' now host type cb o, query_for s host type o -> qinv s -> query_effect s s' now host type (Some cb) o -> grown s s'.
Proof.
  intros s s' now host type cb o So H E. destruct o as [q|]; cbn [query_effect] in E.
  - destruct E as (x & Ex & Ex' & Eo & El & _). split; [|exists []; exact El]. intros p y Ey. destruct (Nat.eq_dec p q) as [->|D].
    + exists (set_qcb x cb). split; [exact Ex'|]. replace y with x by congruence. repeat split.
    + exists y. rewrite Eo by exact D. auto.
  - destruct E as (E1 & Eo & El & _). split; [|exists [qfresh s]; exact El]. intros p y Ey. exists y. rewrite Eo; [auto|].
    intros ->. assert (A : qh s (qfresh s) <> None) by congruence. apply (qi_fresh _ H) in A. lia.
Qed.

(* A series of calls *)
Lemma queries_ok : forall l s now, qinv s -> 0 <= now ->
  exists s', queries s now l = Ok s' /\ qinv s' /\ (qnum s -> qnum s') /\ (forall i, Forall2 csame (centries s i) (centries s' i)) /\
    ncb s' = ncb s /\ told s' = told s /\ cfresh s' = cfresh s /\ (qfresh s <= qfresh s')%nat /\
    (Forall registers l -> grown s s' /\ (forall i, Forall2 cown (centries s i) (centries s' i))).
Proof.
  induction l as [|[[host type] answer] l IH]; intros s now H N; cbn [queries].
  - exists s. repeat (split; [auto; fail|]). split; [intros; apply Forall2_refl'; apply csame_refl|]. repeat (split; [auto; fail|]).
    intros _. split; [apply grown_refl|intros; apply Forall2_refl'; apply cown_refl].
  - destruct (mdnsd_query_spec s now host type answer H) as (s1 & o & E1 & H1 & Q1 & F1 & C1 & A1 & A2 & A3 & A4). rewrite E1. cbn [bind].
    destruct (IH s1 now H1 N) as (s' & E' & H' & N' & C' & B1 & B2 & B3 & B4 & R'). exists s'. split; [exact E'|]. split; [exact H'|].
    split; [intros K; apply N'; eapply query_num; eauto|]. split; [intros i; eapply (Forall2_trans' _ csame csame_trans); [apply C1|apply C']|].
    split; [congruence|]. split; [congruence|]. split; [congruence|]. split; [lia|]. intros F. inversion F as [|? ? Fa Fl]; subst. cbn [snd registers] in Fa. unfold registers in Fa. cbn [snd] in Fa.
    destruct answer as [cb|]; [|congruence]. destruct (R' Fl) as [G' O']. split.
    + eapply grown_trans; [|exact G']. eapply query_grown; eauto.
    + intros i. eapply (Forall2_trans' _ cown cown_trans); [|apply O']. eapply query_registers; eauto.
Qed.

(* ------------------------------------------------------------------ *)
(* A program's callbacks, with an invariant of its state.  They do not both
   remove a query and return -1; strict callbacks do neither. *)

(* The program's state after being told T *)
Inductive replay {A} (beh : behaviour A) : A -> list (nat * answer) -> A -> Prop :=
| replay_nil : forall a, replay beh a [] a
| replay_cons : forall a k x a' l rm T a'', beh a k x = Ok (a', l, rm) -> replay beh a' T a'' -> replay beh a ((k, x) :: T) a''.
Lemma replay_app : forall A (beh : behaviour A) T U a b c, replay beh a T b -> replay beh b U c -> replay beh a (T ++ U) c.
Proof. intros A beh T U a b c X. induction X as [|a k x a' l rm T b E X IH]; intros Y; cbn [app]; [exact Y|]. econstructor; [exact E|apply IH; exact Y]. Qed.

Section Re.
Context {A : Type} (beh : behaviour A) (Ia : A -> Prop) (P : answer -> Prop) (strict : bool).
Hypothesis Pttl : forall x t, P x -> P (set_ttl x t).
Hypothesis Hb : forall a k x, Ia a -> P x -> exists a' l rm, beh a k x = Ok (a', l, rm) /\ Ia a' /\
  (rm = true -> Forall registers l) /\ (strict = true -> rm = false /\ Forall registers l).

Definition holds (s : qrys) : Prop := forall i c, In c (centries s i) -> P (c_rr c).

Record goes (s : qrys) (a : A) (s' : qrys) (a' : A) : Prop := mkgoes {
  go_inv : qinv s'; go_ia : Ia a'; go_num : qnum s -> qnum s';
  go_told : exists T, told s' = told s ++ T /\ replay beh a T a' /\ Forall (fun t => P (snd t)) T;
  go_cfresh : (cfresh s <= cfresh s')%nat;
  go_qfresh : (qfresh s <= qfresh s')%nat;
  go_grown : strict = true -> grown s s'
}.
Lemma goes_refl : forall s a, qinv s -> Ia a -> goes s a s a.
Proof.
  intros s a H I. split; auto; [|intros _; apply grown_refl]. exists []. rewrite app_nil_r. repeat split; constructor.
Qed.
Lemma goes_trans : forall s a s1 a1 s2 a2, goes s a s1 a1 -> goes s1 a1 s2 a2 -> goes s a s2 a2.
Proof.
  intros s a s1 a1 s2 a2 [A1 A2 A3 (T & T1 & T2 & T3) A5 A6 A7] [B1 B2 B3 (U & U1 & U2 & U3) B5 B6 B7]. split; auto; try lia.
  - exists (T ++ U). split; [rewrite U1, T1; symmetry; apply app_assoc|]. split; [eapply replay_app; eauto|apply Forall_app; auto].
  - intros K. eapply grown_trans; auto.
Qed.
(* Changing only entries *)
Lemma goes_entries : forall s a i l s' a', goes (set_centries s i l) a s' a' -> goes s a s' a'.
Proof. intros s a i l s' a' [A1 A2 A3 A4 A5 A6 A7]. split; try assumption. intros K. destruct (A7 K) as [G1 G2]. split; assumption. Qed.

Lemma P_ttl_now : forall now x, P x -> P (ttl_now now x).
Proof. intros now x K. unfold ttl_now. destruct (a_ttl x <=? now); [apply Pttl|]; exact K. Qed.

Lemma q_answer_re_ok : forall s a now c q x, qinv s -> Ia a -> P (c_rr c) -> 0 <= now -> c_q c = Some q -> qh s q = Some x ->
  (forall y, In y (centries s (cbucket (a_name (c_rr c)))) -> c_id y = c_id c -> c_q y <> None) ->
  exists s' a', q_answer_re beh s a now c = Ok (s', a') /\ goes s a s' a' /\
    let i := cbucket (a_name (c_rr c)) in
    let s0 := set_centries s i (with_ttl (c_id c) (a_ttl (ttl_now now (c_rr c))) (centries s i)) in
    (forall j, Forall2 csame (centries s0 j) (centries s' j)).
Proof.
  intros s a now c q x H I Pc N Eq Ex Own. unfold q_answer_re. cbv zeta.
  assert (RE : c_rr (if a_ttl (c_rr c) <=? now then set_cttl c 0 else c) = ttl_now now (c_rr c)).
  { unfold ttl_now. destruct (a_ttl (c_rr c) <=? now); reflexivity. }
  rewrite RE, Eq. fold (with_ttl (c_id c) (a_ttl (ttl_now now (c_rr c))) (centries s (cbucket (a_name (c_rr c))))).
  set (i := cbucket (a_name (c_rr c))) in *. set (s0 := set_centries s i (with_ttl (c_id c) (a_ttl (ttl_now now (c_rr c))) (centries s i))).
  assert (H0 : qinv s0).
  { eapply set_centries_inv; [exact H|apply sub_refl|]. apply Forall2_map_r. intros y _. destruct (Nat.eqb (c_id y) (c_id c)); [apply set_cttl_keep|].
    apply crel_keep, crel_refl. }
  assert (E0 : qh s0 q = Some x) by exact Ex.
  rewrite (qget_some _ _ _ E0). cbn [bind].
  destruct (Hb a (q_cb x) (ttl_now now (c_rr c)) I (P_ttl_now now _ Pc)) as (a' & l & rm & Eb & I' & Rg & St). rewrite Eb. cbn [bind].
  set (s1 := tell s0 (q_cb x) (ttl_now now (c_rr c))).
  assert (H1 : qinv s1) by (destruct H0; split; assumption).
  destruct (queries_ok l s1 now H1 N) as (s2 & E2 & H2 & N2 & C2 & A1 & A2 & A3 & A4 & R2). rewrite E2. cbn [bind].
  assert (C2' : forall j, Forall2 csame (centries s0 j) (centries s2 j)) by exact C2.
  assert (TT : told s2 = told s ++ [(q_cb x, ttl_now now (c_rr c))]) by (rewrite A2; reflexivity).
  assert (RP : replay beh a [(q_cb x, ttl_now now (c_rr c))] a') by (econstructor; [exact Eb|constructor]).
  assert (G2 : goes s a s2 a').
  { split; auto.
    - exists [(q_cb x, ttl_now now (c_rr c))]. split; [exact TT|]. split; [exact RP|]. constructor; [apply P_ttl_now; exact Pc|constructor].
    - rewrite A3. exact (le_n _).
    - intros K. destruct (St K) as [_ K']. destruct (R2 K') as [G _]. eapply grown_trans; [|exact G]. apply grown_ext; reflexivity. }
  destruct rm.
  2:{ exists s2, a'. split; [reflexivity|]. split; [exact G2|exact C2']. }
  destruct (R2 (Rg eq_refl)) as [Gr Ow].
  assert (X : exists q', match find_entry (c_id c) (centries s2 i) with Some y => c_q y | None => Some q end = Some q' /\ exists z, qh s2 q' = Some z).
  { destruct (find_entry (c_id c) (centries s2 i)) as [y|] eqn:Fe.
    - apply find_some in Fe as [Iy Ey]. apply Nat.eqb_eq in Ey.
      destruct (Forall2_in_r _ _ _ _ _ _ (Ow i) Iy) as (y1 & I1 & (Id1 & _) & Q1).
      assert (Ei : centries s1 i = with_ttl (c_id c) (a_ttl (ttl_now now (c_rr c))) (centries s i) \/ centries s1 i = []).
      { destruct (Nat.lt_ge_cases i (length (cache s))) as [L|L].
        - left. change (centries s1 i) with (centries s0 i). apply centries_set_same. exact L.
        - right. change (centries s1 i) with (centries s0 i). unfold centries, s0, set_centries. cbn [set_cache cache]. apply nth_overflow. rewrite upd_length. exact L. }
      destruct Ei as [Ei|Ei]; rewrite Ei in I1; [|destruct I1]. unfold with_ttl in I1. apply in_map_iff in I1. destruct I1 as (y0 & E0' & I0).
      assert (K0 : c_id y0 = c_id c). { rewrite <- Ey, Id1, <- E0'. destruct (Nat.eqb (c_id y0) (c_id c)); reflexivity. }
      assert (Nq : c_q y0 <> None) by (apply Own; assumption).
      assert (Nq1 : c_q y1 <> None) by (rewrite <- E0'; destruct (Nat.eqb (c_id y0) (c_id c)); exact Nq).
      destruct (c_q y) as [q'|] eqn:Eq'; [|destruct (Q1 Nq1 eq_refl)]. exists q'. split; [reflexivity|].
      destruct (qi_cq _ H2 i y q' Iy Eq') as (z & Ez & _). exists z. exact Ez.
    - exists q. split; [reflexivity|]. destruct (gr_qh _ _ Gr q x E0) as (y & Ey & _). exists y. exact Ey. }
  destruct X as (q' & -> & z & Ez).
  destruct (q_done_spec s2 q' z H2 Ez) as (s' & E' & H' & B1 & B2 & B3 & B4 & B5 & B6 & B7 & B8 & B9). rewrite E'. cbn [bind].
  exists s', a'. split; [reflexivity|]. split.
  - destruct G2 as [D1 D2 D3 D4 D5 D6 D7]. split; auto.
    + intros Qn p y Ey. destruct (Nat.eq_dec p q') as [->|Dp]; [congruence|]. rewrite B2 in Ey by exact Dp. exact (D3 Qn p y Ey).
    + rewrite B9. exact D4.
    + rewrite B6. exact D5.
    + rewrite B5. exact D6.
    + intros K. destruct (St K) as [K' _]. discriminate.
  - intros j. eapply (Forall2_trans' _ csame csame_trans); [apply C2'|]. apply crel_csame. apply B4.
Qed.

Lemma expire_re_ok : forall ids rem s a now i kept, map c_id rem = ids -> qinv s -> Ia a -> 0 <= now -> (i < Z.to_nat LPRIME)%nat -> centries s i = kept ++ rem ->
  (forall c, In c rem -> P (c_rr c)) ->
  exists s' a', expire_re beh s a now i ids = Ok (s', a') /\ goes s a s' a' /\
    Forall2 csame (kept ++ filter (alive now) rem) (centries s' i) /\ (forall j, j <> i -> Forall2 csame (centries s j) (centries s' j)).
Proof.
  induction ids as [|id ids IH]; intros rem s a now i kept Eid H I N Li Ec Pr.
  - destruct rem; [|discriminate]. exists s, a. cbn [expire_re filter]. split; [reflexivity|]. split; [apply goes_refl; assumption|]. rewrite app_nil_r in *. rewrite Ec.
    split; [apply Forall2_refl'; apply csame_refl|]. intros; apply Forall2_refl'; apply csame_refl.
  - destruct rem as [|c rem]; [discriminate|]. cbn [map] in Eid. injection Eid as Eid1 Eid2. subst id.
    cbn [expire_re]. rewrite Ec. pose proof (qi_cid _ H i) as ND. rewrite Ec in ND. rewrite find_entry_mid by exact ND.
    assert (Lc : (i < length (cache s))%nat) by (rewrite (qi_clen _ H); exact Li).
    assert (Ic : In c (centries s i)) by (rewrite Ec; apply in_or_app; right; left; reflexivity).
    destruct (a_ttl (c_rr c) <=? now) eqn:Ex.
    + rewrite drop_entry_mid by exact ND. set (s1 := set_centries s i (kept ++ rem)).
      assert (H1 : qinv s1).
      { eapply set_centries_inv; [exact H| |apply Forall2_refl'; intros; apply crel_keep, crel_refl]. rewrite Ec. apply sub_drop. }
      assert (E1 : centries s1 i = kept ++ rem) by (apply centries_set_same; exact Lc).
      assert (O1 : forall j, j <> i -> centries s1 j = centries s j) by (intros j D; apply centries_set_other; exact D).
      assert (Fi : filter (alive now) (c :: rem) = filter (alive now) rem).
      { cbn [filter]. unfold alive at 1. replace (now <? a_ttl (c_rr c)) with false by lia. reflexivity. }
      rewrite Fi.
      assert (X : exists s2 a2, match c_q c with Some _ => q_answer_re beh s1 a now c | None => Ok (s1, a) end = Ok (s2, a2) /\ goes s1 a s2 a2 /\ (forall j, Forall2 csame (centries s1 j) (centries s2 j))).
      { destruct (c_q c) as [q|] eqn:Eq.
        - destruct (qi_cq _ H i c q Ic Eq) as (x & Eqx & Mx).
          assert (Bi : cbucket (a_name (c_rr c)) = i) by (apply (qi_cbucket _ H i c Ic)).
          assert (NC : ~ In (c_id c) (map c_id (centries s1 i))).
          { rewrite E1. rewrite map_app in *. cbn [map] in ND. exact (NoDup_remove_2 _ _ _ ND). }
          destruct (q_answer_re_ok s1 a now c q x H1 I (Pr c (or_introl eq_refl)) N Eq Eqx) as (s2 & a2 & E2 & G2 & R2).
          { rewrite Bi. intros y Iy Ey. destruct NC. rewrite <- Ey. apply in_map. exact Iy. }
          cbv zeta in R2. rewrite Bi, (with_ttl_notin _ _ _ NC), set_centries_id in R2. exists s2, a2. auto.
        - exists s1, a. split; [reflexivity|]. split; [apply goes_refl; assumption|]. intros; apply Forall2_refl'; apply csame_refl. }
      destruct X as (s2 & a2 & E2 & G2 & R2). rewrite E2. cbn [bind].
      pose proof (R2 i) as R2i. rewrite E1 in R2i. destruct (Forall2_app_l _ _ _ _ _ _ R2i) as (kept' & rem' & Es2 & Fk & Fr).
      destruct (IH rem' s2 a2 now i kept') as (s' & a' & E' & G' & R' & O').
      { rewrite (map_id_csame _ _ Fr). exact Eid2. }
      { exact (go_inv _ _ _ _ G2). } { exact (go_ia _ _ _ _ G2). } { exact N. } { exact Li. } { exact Es2. }
      { intros y Iy. destruct (Forall2_in_r _ _ _ _ _ _ Fr Iy) as (z & Iz & (_ & K)). rewrite K. apply Pr. right. exact Iz. }
      exists s', a'. split; [exact E'|]. split; [eapply goes_entries; eapply goes_trans; [exact G2|exact G']|]. split.
      * eapply (Forall2_trans' _ csame csame_trans); [|exact R']. apply Forall2_app; [exact Fk|apply filter_csame; exact Fr].
      * intros j D. eapply (Forall2_trans' _ csame csame_trans); [|apply O'; exact D]. rewrite <- (O1 j D). apply R2.
    + destruct (IH rem s a now i (kept ++ [c]) Eid2 H I N Li) as (s' & a' & E' & G' & R' & O').
      { rewrite <- app_assoc. exact Ec. }
      { intros y Iy. apply Pr. right. exact Iy. }
      assert (Fi : kept ++ filter (alive now) (c :: rem) = (kept ++ [c]) ++ filter (alive now) rem).
      { cbn [filter]. unfold alive at 1. replace (now <? a_ttl (c_rr c)) with true by lia. rewrite <- app_assoc. reflexivity. }
      exists s', a'. rewrite Fi. split; [exact E'|]. split; [exact G'|]. split; [exact R'|exact O'].
Qed.

Lemma c_expire_re_ok : forall s a now i, qinv s -> Ia a -> 0 <= now -> (i < Z.to_nat LPRIME)%nat -> (forall c, In c (centries s i) -> P (c_rr c)) ->
  exists s' a', c_expire_re beh s a now i = Ok (s', a') /\ goes s a s' a' /\
    Forall2 csame (filter (alive now) (centries s i)) (centries s' i) /\ (forall j, j <> i -> Forall2 csame (centries s j) (centries s' j)).
Proof.
  intros s a now i H I N Li Pr. unfold c_expire_re. exact (expire_re_ok _ (centries s i) s a now i [] eq_refl H I N Li eq_refl Pr).
Qed.

(* A set of entries marked dead, then expired *)
Lemma expire_kill_re : forall s a now i p, qinv s -> Ia a -> 0 <= now -> (i < Z.to_nat LPRIME)%nat -> (forall c, In c (centries s i) -> P (c_rr c)) ->
  exists s' a', c_expire_re beh (set_centries s i (kill p (centries s i))) a now i = Ok (s', a') /\ goes s a s' a' /\
    Forall2 csame (filter (survives now p) (centries s i)) (centries s' i) /\ (forall j, j <> i -> Forall2 csame (centries s j) (centries s' j)).
Proof.
  intros s a now i p H I N Li Pr. set (s1 := set_centries s i (kill p (centries s i))).
  assert (H1 : qinv s1).
  { eapply set_centries_inv; [exact H|apply sub_refl|]. apply Forall2_map_r. intros x _. destruct (p x); [apply set_cttl_keep|apply crel_keep, crel_refl]. }
  assert (E1 : centries s1 i = kill p (centries s i)) by (apply centries_set_same; rewrite (qi_clen _ H); exact Li).
  destruct (c_expire_re_ok s1 a now i H1 I N Li) as (s' & a' & E' & G' & R' & O').
  { intros c Ic. rewrite E1 in Ic. unfold kill in Ic. apply in_map_iff in Ic. destruct Ic as (y & <- & Iy). destruct (p y); [|apply Pr; exact Iy]. cbn [set_cttl c_rr]. apply Pttl, Pr. exact Iy. }
  exists s', a'. split; [exact E'|]. split; [eapply goes_entries; exact G'|]. split.
  - rewrite E1, filter_kill in R' by exact N. exact R'.
  - intros j D. assert (K : centries s1 j = centries s j) by (apply centries_set_other; exact D). rewrite <- K. apply O'. exact D.
Qed.

Lemma gc_re_ok : forall is s a now, qinv s -> Ia a -> 0 <= now -> (forall i, In i is -> (i < Z.to_nat LPRIME)%nat) -> holds s ->
  exists s' a', gc_re beh s a now is = Ok (s', a') /\ goes s a s' a' /\ holds s' /\
    (forall i c', In c' (centries s' i) -> exists c, In c (centries s i) /\ csame c c').
Proof.
  induction is as [|i is IH]; intros s a now H I N Li Hd; cbn [gc_re].
  - exists s, a. split; [reflexivity|]. split; [apply goes_refl; assumption|]. split; [exact Hd|]. intros i c Ic. exists c. split; [exact Ic|apply csame_refl].
  - destruct (c_expire_re_ok s a now i H I N (Li i (or_introl eq_refl)) (Hd i)) as (s1 & a1 & E1 & G1 & R1 & O1). rewrite E1. cbn [bind].
    assert (C1 : forall j c', In c' (centries s1 j) -> exists c, In c (centries s j) /\ csame c c').
    { intros j c' Ic. destruct (Nat.eq_dec j i) as [->|D].
      - destruct (Forall2_in_r _ _ _ _ _ _ R1 Ic) as (c & Jc & K). apply filter_In in Jc as [Jc _]. eauto.
      - destruct (Forall2_in_r _ _ _ _ _ _ (O1 j D) Ic) as (c & Jc & K). eauto. }
    assert (Hd1 : holds s1). { intros j c' Ic. destruct (C1 j c' Ic) as (c & Jc & _ & K). rewrite K. exact (Hd j c Jc). }
    destruct (IH s1 a1 now (go_inv _ _ _ _ G1) (go_ia _ _ _ _ G1) N (fun j K => Li j (or_intror K)) Hd1) as (s' & a' & E' & G' & Hd' & C').
    exists s', a'. split; [exact E'|]. split; [eapply goes_trans; eauto|]. split; [exact Hd'|].
    intros j c' Ic. destruct (C' j c' Ic) as (c1 & I1 & K1). destruct (C1 j c1 I1) as (c & Ic0 & K0). exists c. split; [exact Ic0|eapply csame_trans; eauto].
Qed.

Lemma find_csame : forall r l l', Forall2 csame l l' -> find (holds_rr r) l = None -> find (holds_rr r) l' = None.
Proof.
  intros r l l' F. induction F as [|x y l l' (_ & K) F IH]; [reflexivity|]. cbn [find]. unfold holds_rr at 1 3. rewrite K. destruct (a_match r (c_rr x)); [discriminate|exact IH].
Qed.
Lemma existsb_csame : forall r l l', Forall2 csame l l' -> existsb (holds_rr r) l' = existsb (holds_rr r) l.
Proof. intros r l l' F. induction F as [|x y l l' (_ & K) F IH]; [reflexivity|]. cbn [existsb]. rewrite IH. unfold holds_rr. rewrite K. reflexivity. Qed.
Lemma withdrawn_csame : forall now r l l', Forall2 csame l l' -> Forall2 csame (withdrawn now r l) (withdrawn now r l').
Proof.
  intros now r l l' F. unfold withdrawn. rewrite (existsb_csame r _ _ F). destruct (existsb (holds_rr r) l); [|exact F].
  induction F as [|x y l l' K F IH]; [constructor|]. cbn [filter].
  assert (E : survives now (holds_rr r) y = survives now (holds_rr r) x) by (destruct K as (_ & K); unfold survives, alive, holds_rr; rewrite K; reflexivity).
  rewrite E. destruct (survives now (holds_rr r) x); [constructor; assumption|exact IH].
Qed.
Lemma refreshed_csame : forall t r l l', Forall2 csame l l' -> Forall2 csame (refreshed t r l) (refreshed t r l').
Proof.
  intros t r l l' F. unfold refreshed. induction F as [|x y l l' K F IH]; [constructor|]. cbn [map]. constructor; [|exact IH].
  destruct K as (K1 & K2). unfold holds_rr. rewrite K2. destruct (a_match r (c_rr x)); [|split; auto]. split; [exact K1|]. cbn [set_cttl c_rr]. rewrite K2. reflexivity.
Qed.

Lemma delete_re_ok : forall n s a now i r, qinv s -> Ia a -> (i < Z.to_nat LPRIME)%nat -> 0 <= now -> wf_resource r -> (length (centries s i) < n)%nat -> (forall c, In c (centries s i) -> P (c_rr c)) ->
  exists s' a', delete_re beh n s a now i r = Ok (s', a') /\ goes s a s' a' /\
    Forall2 csame (withdrawn now r (centries s i)) (centries s' i) /\ (forall j, j <> i -> Forall2 csame (centries s j) (centries s' j)).
Proof.
  intros [|n] s a now i r H I Li N W Ln Pr; [lia|]. cbn [delete_re]. rewrite holds_rr_find. unfold withdrawn. rewrite existsb_find.
  destruct (find (holds_rr r) (centries s i)) as [c|] eqn:F.
  - assert (K : map (fun x => if Nat.eqb (c_id x) (c_id c) then set_cttl x 0 else x) (centries s i) = kill (holds_rr r) (centries s i)).
    { apply map_ext_in. intros x Ix. rewrite (find_key_unique r (centries s i) c W (qi_dup _ H i) (qi_cid _ H i) F x Ix). reflexivity. }
    rewrite K. destruct (expire_kill_re s a now i (holds_rr r) H I N Li Pr) as (s1 & a1 & E1 & G1 & R1 & O1). rewrite E1. cbn [bind].
    destruct n as [|n]. { exfalso. destruct (centries s i); [discriminate|cbn [length] in Ln; lia]. }
    cbn [delete_re]. rewrite holds_rr_find. rewrite (find_csame r _ _ R1 (find_survives now r _)).
    exists s1, a1. auto.
  - exists s, a. split; [reflexivity|]. split; [apply goes_refl; assumption|]. split; intros; apply Forall2_refl'; apply csame_refl.
Qed.

(* What a program is told of a received record *)
Hypothesis Pnew : forall r ttl from w, wf_resource r -> cache_answer r ttl from = Some w -> P w.

Lemma cache_re_ok : forall s a now cls r from, qinv s -> Ia a -> 0 <= now -> wf_resource r -> holds s ->
  let i := cbucket (rr_name r) in
  exists s' a' o id, cache_re beh s a now cls r from = Ok (s', a') /\ goes s a s' a' /\ holds s' /\
    Forall2 csame (cached_in id now cls r from o (centries s i)) (centries s' i) /\ (forall j, j <> i -> Forall2 csame (centries s j) (centries s' j)).
Proof.
  intros s a now cls r from H I N W Hd i. assert (Li : (i < Z.to_nat LPRIME)%nat) by apply cbucket_lt.
  assert (X : exists s' a' o id, cache_re beh s a now cls r from = Ok (s', a') /\ goes s a s' a' /\
    Forall2 csame (cached_in id now cls r from o (centries s i)) (centries s' i) /\ (forall j, j <> i -> Forall2 csame (centries s j) (centries s' j))).
  2:{ destruct X as (s' & a' & o & id & E & G & F & O). exists s', a', o, id. split; [exact E|]. split; [exact G|]. split; [|split; [exact F|exact O]].
      intros j c' Ic. destruct (Nat.eq_dec j i) as [->|D].
      2:{ destruct (Forall2_in_r _ _ _ _ _ _ (O j D) Ic) as (c & Jc & _ & K). rewrite K. exact (Hd j c Jc). }
      destruct (Forall2_in_r _ _ _ _ _ _ F Ic) as (c & Jc & _ & K). rewrite K. clear K Ic F O E G.
      assert (Fl : forall c, In c (flushed now (rr_class r =? 32768 + cls) (rr_name r) (rr_type r) (centries s i)) -> P (c_rr c)).
      { intros y Iy. unfold flushed in Iy. destruct (rr_class r =? 32768 + cls); [apply filter_In in Iy as [Iy _]|]; exact (Hd i y Iy). }
      unfold cached_in in Jc. destruct (rr_ttl r =? 0).
      - unfold withdrawn in Jc. destruct (existsb _ _); [apply filter_In in Jc as [Jc _]|]; apply Fl; exact Jc.
      - destruct (existsb _ _).
        + unfold refreshed in Jc. apply in_map_iff in Jc. destruct Jc as (y & <- & Iy). destruct (holds_rr r y); [cbn [set_cttl c_rr]; apply Pttl|]; apply Fl; exact Iy.
        + destruct (cache_answer r (now + rr_ttl r / 2 + 8) from) as [w|] eqn:Ew; [|apply Fl; exact Jc]. destruct Jc as [<-|Jc]; [|apply Fl; exact Jc]. exact (Pnew _ _ _ _ W Ew). }
  unfold cache_re. cbv zeta. fold i. unfold cached_in. set (fl := rr_class r =? 32768 + cls).
  assert (X1 : exists s1 a1, (if fl then c_expire_re beh (set_centries s i (map (fun c => if c_match (rr_name r) (rr_type r) c then set_cttl c 0 else c) (centries s i))) a now i else Ok (s, a)) = Ok (s1, a1) /\
     goes s a s1 a1 /\ Forall2 csame (flushed now fl (rr_name r) (rr_type r) (centries s i)) (centries s1 i) /\ (forall j, j <> i -> Forall2 csame (centries s j) (centries s1 j))).
  { unfold flushed. destruct fl; [exact (expire_kill_re s a now i (c_match (rr_name r) (rr_type r)) H I N Li (Hd i))|].
    exists s, a. split; [reflexivity|]. split; [apply goes_refl; assumption|]. split; intros; apply Forall2_refl'; apply csame_refl. }
  destruct X1 as (s1 & a1 & E1 & G1 & R1 & O1). rewrite E1. cbn [bind]. set (l1 := flushed now fl (rr_name r) (rr_type r) (centries s i)) in *.
  pose proof (go_inv _ _ _ _ G1) as H1. pose proof (go_ia _ _ _ _ G1) as I1.
  assert (P1 : forall c, In c (centries s1 i) -> P (c_rr c)).
  { intros c' Ic. destruct (Forall2_in_r _ _ _ _ _ _ R1 Ic) as (c & Jc & _ & K). rewrite K. unfold l1, flushed in Jc. destruct fl; [apply filter_In in Jc as [Jc _]|]; exact (Hd i c Jc). }
  destruct (rr_ttl r =? 0) eqn:T0.
  - destruct (delete_re_ok (S (length (centries s1 i))) s1 a1 now i r H1 I1 Li N W ltac:(lia) P1) as (s2 & a2 & E2 & G2 & R2 & O2).
    exists s2, a2, None, 0%nat. split; [exact E2|]. split; [eapply goes_trans; eauto|]. split.
    + eapply (Forall2_trans' _ csame csame_trans); [|exact R2]. apply withdrawn_csame. exact R1.
    + intros j D. eapply (Forall2_trans' _ csame csame_trans); [apply O1|apply O2]; exact D.
  - rewrite holds_rr_find. assert (Ex := existsb_find _ (holds_rr r) (centries s1 i)). rewrite (existsb_csame r _ _ R1) in Ex. rewrite Ex.
    set (ttl := now + rr_ttl r / 2 + 8) in *. assert (Tp : now < ttl) by (destruct W as [W _]; unfold ttl; lia).
    destruct (find (holds_rr r) (centries s1 i)) as [c|] eqn:F.
    + assert (K : map (fun x => if Nat.eqb (c_id x) (c_id c) then set_cttl x ttl else x) (centries s1 i) = refreshed ttl r (centries s1 i)).
      { apply map_ext_in. intros x Ix. rewrite (find_key_unique r (centries s1 i) c W (qi_dup _ H1 i) (qi_cid _ H1 i) F x Ix). reflexivity. }
      rewrite K. set (s2 := set_centries s1 i (refreshed ttl r (centries s1 i))).
      assert (E2 : centries s2 i = refreshed ttl r (centries s1 i)) by (apply centries_set_same; rewrite (qi_clen _ H1); exact Li).
      assert (O2 : forall j, j <> i -> centries s2 j = centries s1 j) by (intros j D; apply centries_set_other; exact D).
      assert (H2 : qinv s2).
      { eapply set_centries_inv; [exact H1|apply sub_refl|]. apply Forall2_map_r. intros x _. destruct (holds_rr r x); [apply set_cttl_keep|apply crel_keep, crel_refl]. }
      exists s2, a1, None, 0%nat. split; [reflexivity|]. split; [|split; [rewrite E2; apply refreshed_csame; exact R1|intros j D; rewrite (O2 j D); apply O1; exact D]].
      destruct G1 as [D1 D2 D3 D4 D5 D6 D7]. split; auto. intros Sx. destruct (D7 Sx) as [G1 G2]. split; assumption.
    + destruct (cache_answer_ok r ttl from W) as (w & Ew & Kw & Tw & Nw & Yw). rewrite Ew.
      destruct (q_find_spec s1 (rr_name r) (rr_type r) H1) as (o & Eo & So). rewrite Eo.
      assert (G : negb (rr_rdlength r =? 0) && match rr_rdata r with None => true | Some _ => false end = false).
      { destruct W as (_ & W & _). destruct (rr_rdata r); [apply andb_false_r|]. cbn [opt_bytes] in W. rewrite zlen_nil in W. rewrite W. reflexivity. }
      rewrite G. cbn [bind]. set (c := mkcached (cfresh s1) w o). set (s2 := mkqrys _ _ _ _ _ _ _ _ _).
      assert (H2 : qinv s2).
      { apply insert_inv; try assumption; [rewrite Nw; reflexivity| |].
        - intros x Ix K. pose proof (find_none _ _ F x Ix) as M. unfold holds_rr in M. rewrite Kw in K. apply a_match_key in K; [congruence|exact W].
        - destruct o as [q|]; [|exact Logic.I]. rewrite Nw, Yw. exact So. }
      assert (E2 : centries s2 i = c :: centries s1 i) by (unfold centries, s2; cbn [cache]; apply nth_upd_same; rewrite (qi_clen _ H1); exact Li).
      assert (O2 : forall j, j <> i -> centries s2 j = centries s1 j) by (intros j D; unfold centries, s2; cbn [cache]; apply nth_upd_other; congruence).
      assert (S2 : forall s' a', goes s2 a1 s' a' -> goes s1 a1 s' a').
      { intros s' a' [B1 B2 B3 B4 B5 B6 B7]. split; try assumption. - cbn [s2 cfresh] in B5. lia. - intros Sx. destruct (B7 Sx) as [G1' G2']. split; assumption. }
      destruct o as [q|].
      * destruct So as (x & Ex' & Nx & Yx).
        destruct (q_answer_re_ok s2 a1 now c q x H2 I1 (Pnew _ _ _ _ W Ew) N eq_refl Ex') as (s3 & a3 & E3 & G3 & R3).
        { cbn [c c_rr c_id]. rewrite Nw. fold i. rewrite E2. intros y [<-|Iy] Ey; [cbn [c c_q]; discriminate|]. apply (qi_cfresh _ H1) in Iy. lia. }
        rewrite E3. cbv zeta in R3. cbn [c c_rr c_id] in R3. rewrite Nw in R3. fold i in R3.
        assert (TN : ttl_now now w = w) by (unfold ttl_now; replace (a_ttl w <=? now) with false by lia; reflexivity).
        assert (WI : with_ttl (cfresh s1) (a_ttl (ttl_now now w)) (centries s2 i) = centries s2 i).
        { rewrite TN, E2. unfold with_ttl. cbn [map c c_id]. rewrite Nat.eqb_refl. f_equal; [unfold set_cttl; cbn [c_id c_rr c_q]; rewrite set_ttl_same; reflexivity|].
          apply with_ttl_notin. intros K. apply in_map_iff in K. destruct K as (y & K1 & K2). apply (qi_cfresh _ H1) in K2. lia. }
        rewrite WI, set_centries_id in R3.
        exists s3, a3, (Some q), (cfresh s1). split; [reflexivity|]. split; [eapply goes_trans; [exact G1|]; apply S2; exact G3|].
        split. { eapply (Forall2_trans' _ csame csame_trans); [|apply R3]. rewrite E2. constructor; [apply csame_refl|exact R1]. }
        intros j D. eapply (Forall2_trans' _ csame csame_trans); [apply O1; exact D|]. rewrite <- (O2 j D). apply R3.
      * exists s2, a1, None, (cfresh s1). split; [reflexivity|]. split; [eapply goes_trans; [exact G1|]; apply S2; apply goes_refl; assumption|].
        split; [rewrite E2; constructor; [apply csame_refl|exact R1]|]. intros j D; rewrite (O2 j D); apply O1; exact D.
Qed.

End Re.
