(* New records are told of to queries of exactly their type. *)
From Verif Require Import Base Lemmas Hash Wire Rec Qry Out In Api RecInv RecSafe RecOps RecAddr OutSafe QryInv QryOps CacheOps QryReg QryLoop InSafe InLoop InResp OutSpec DaemonInv SpecDaemon FactsCalls FactsIn SpecCache FactsCache FactsTold.

Definition hears (s : qrys) (p : nat * answer) : Prop := a_ttl (snd p) <> 0 -> exists q x, qh s q = Some x /\ q_cb x = fst p /\ is_for x (a_name (snd p)) (a_type (snd p)).
Record exactly (s s' : qrys) : Prop := mkexactly {
  ex_told : exists T, told s' = told s ++ T /\ forall p, In p T -> hears s p;
  ex_back : forall q x', qh s' q = Some x' -> exists x, qh s q = Some x /\ q_nm x' = q_nm x /\ q_ty x' = q_ty x /\ q_cb x' = q_cb x
}.

Lemma ex_refl : forall s, exactly s s.
Proof. intros s. split; [exists []; rewrite app_nil_r; split; [reflexivity|intros p []]|eauto]. Qed.
Lemma ex_trans : forall a b c, exactly a b -> exactly b c -> exactly a c.
Proof.
  intros a b c [(T & E1 & H1) B1] [(U & E2 & H2) B2]. split.
  - exists (T ++ U). rewrite E2, E1, app_assoc. split; [reflexivity|]. intros p I. apply in_app_or in I as [I|I]; [exact (H1 p I)|]. intros N. destruct (H2 p I N) as (q & x & Ex & C & (F1 & F2)).
    destruct (B1 q x Ex) as (y & Ey & Y1 & Y2 & Y3). exists q, y. split; [exact Ey|]. split; [congruence|]. split; congruence.
  - intros q x Ex. destruct (B2 q x Ex) as (y & Ey & Y1 & Y2 & Y3). destruct (B1 q y Ey) as (z & Ez & Z1 & Z2 & Z3). exists z. split; [exact Ez|]. split; [congruence|]. split; congruence.
Qed.
Lemma ex_same : forall s s', qh s' = qh s -> told s' = told s -> exactly s s'.
Proof. intros s s' E1 E2. split; [exists []; rewrite app_nil_r; split; [exact E2|intros p []]|rewrite E1; eauto]. Qed.

Lemma ex_done : forall s q s', q_done s q = Ok s' -> exactly s s'.
Proof.
  intros s q s' K. unfold q_done in K. apply bind_ok in K as (x & _ & K). cbv zeta in K. destruct (negb _ || negb _); [discriminate|]. injection K as <-. split.
  - exists []. rewrite app_nil_r. split; [reflexivity|intros p []].
  - cbn [qh]. intros p y. destruct (Nat.eqb p q); [discriminate|]. cbn [set_centries set_cache qh]. eauto.
Qed.

Lemma ex_answer : forall s now cb c s', q_answer s now cb c = Ok s' ->
  (now < a_ttl (c_rr c) -> forall q x, c_q c = Some q -> qh s q = Some x -> is_for x (a_name (c_rr c)) (a_type (c_rr c))) -> exactly s s'.
Proof.
  intros s now cb c s' K F. unfold q_answer in K. cbv zeta in K. destruct (c_q c) as [q|]; [|discriminate]. set (s0 := set_centries s _ _) in *. apply bind_ok in K as (x & Ex & K).
  unfold qget in Ex. change (qh s0 q) with (qh s q) in Ex. destruct (qh s q) as [x0|] eqn:E0; [|discriminate]. injection Ex as ->. set (s1 := tell s0 _ _) in *.
  assert (X1 : exactly s s1).
  { split; [|cbn [s1 tell qh s0 set_centries set_cache]; eauto]. exists [(q_cb x, c_rr (if a_ttl (c_rr c) <=? now then set_cttl c 0 else c))]. split; [reflexivity|].
    intros p [<-|[]] N. cbn [fst snd] in *. destruct (Z.leb_spec (a_ttl (c_rr c)) now) as [L|L]; [exfalso; apply N; reflexivity|]. exists q, x. split; [exact E0|]. split; [reflexivity|]. apply (F L q x eq_refl E0). }
  destruct (cb (ncb s0)); [|injection K as <-; exact X1]. exact (ex_trans _ _ _ X1 (ex_done _ _ _ K)).
Qed.

Lemma ex_expire_loop : forall ids s now cb i s', expire_loop s now cb i ids = Ok s' -> exactly s s'.
Proof.
  induction ids as [|id ids IH]; intros s now cb i s' K; cbn [expire_loop] in K; [injection K as <-; apply ex_refl|].
  destruct (find_entry id (centries s i)) as [c|]; [|discriminate]. destruct (Z.leb_spec (a_ttl (c_rr c)) now) as [L|L]; [|exact (IH _ _ _ _ _ K)].
  set (s1 := set_centries s i _) in *. apply bind_ok in K as (s2 & K1 & K2). assert (X1 : exactly s s1) by (apply ex_same; reflexivity).
  assert (X2 : exactly s1 s2). { destruct (c_q c) as [q|] eqn:Eq; [|injection K1 as <-; apply ex_refl]. apply (ex_answer _ _ _ _ _ K1). lia. }
  exact (ex_trans _ _ _ (ex_trans _ _ _ X1 X2) (IH _ _ _ _ _ K2)).
Qed.
Lemma ex_expire : forall s now cb i s', c_expire s now cb i = Ok s' -> exactly s s'.
Proof. intros s now cb i s' K. exact (ex_expire_loop _ _ _ _ _ _ K). Qed.
Lemma ex_gc : forall is s now cb s', gc_loop s now cb is = Ok s' -> exactly s s'.
Proof.
  induction is as [|i is IH]; intros s now cb s' K; cbn [gc_loop] in K; [injection K as <-; apply ex_refl|].
  apply bind_ok in K as (s1 & K1 & K2). exact (ex_trans _ _ _ (ex_expire _ _ _ _ _ K1) (IH _ _ _ _ K2)).
Qed.
Lemma ex_delete : forall n s now cb i r s', delete_loop n s now cb i r = Ok s' -> exactly s s'.
Proof.
  induction n as [|n IH]; intros s now cb i r s' K; cbn [delete_loop] in K; [discriminate|]. destruct (find _ _) as [c|]; [|injection K as <-; apply ex_refl].
  cbv zeta in K. apply bind_ok in K as (s1 & K1 & K2). refine (ex_trans _ _ _ _ (IH _ _ _ _ _ _ K2)). refine (ex_trans _ _ _ _ (ex_expire _ _ _ _ _ K1)). apply ex_same; reflexivity.
Qed.

Lemma find_query_for : forall l s host type q, find_query s l host type = Ok (Some q) -> exists x, qh s q = Some x /\ is_for x host type.
Proof.
  induction l as [|y l IH]; intros s host type q K; cbn [find_query] in K; [discriminate|]. apply bind_ok in K as (x & Ex & K). unfold qget in Ex. destruct (qh s y) as [x0|] eqn:E0; [|discriminate]. injection Ex as ->.
  destruct (_ && _) eqn:B; [|exact (IH _ _ _ _ K)]. injection K as <-. apply andb_prop in B as [B1 B2]. apply Z.eqb_eq in B1. apply bytes_eqb_eq in B2. exists x. split; [exact E0|split; assumption].
Qed.

Lemma ex_cache : forall s now cb cls r from s', wf_resource r -> cache_rr s now cb cls r from = Ok s' -> exactly s s'.
Proof.
  intros s now cb cls r from s' W K. unfold cache_rr in K. cbv zeta in K. set (i := cbucket (rr_name r)) in *. apply bind_ok in K as (s1 & K1 & K).
  assert (X1 : exactly s s1).
  { destruct (rr_class r =? 32768 + cls); [|injection K1 as <-; apply ex_refl]. refine (ex_trans _ _ _ _ (ex_expire _ _ _ _ _ K1)). apply ex_same; reflexivity. }
  apply (ex_trans s s1 s' X1). clear K1. destruct (rr_ttl r =? 0); [exact (ex_delete _ _ _ _ _ _ _ K)|]. destruct (find _ _) as [c|]; [injection K as <-; apply ex_same; reflexivity|].
  destruct (negb _ && _); [injection K as <-; apply ex_refl|]. destruct (cache_answer_ok r (now + rr_ttl r / 2 + 8) from W) as (a & Ea & _ & _ & Na & Tya). rewrite Ea in K.
  apply bind_ok in K as (o & K2 & K). set (s2 := mkqrys _ _ _ _ _ _ _ _ _) in *. assert (X2 : exactly s1 s2) by (apply ex_same; reflexivity). apply (ex_trans _ _ _ X2).
  destruct o as [q|]; [|injection K as <-; apply ex_refl]. apply (ex_answer _ _ _ _ _ K). cbn [c_rr c_q]. intros _ p x E Ex. injection E as <-.
  destruct (find_query_for _ _ _ _ _ K2) as (y & Ey & F). change (qh s2 q) with (qh s1 q) in Ex. rewrite Ey in Ex. injection Ex as <-. rewrite Na, Tya. exact F.
Qed.

Lemma ex_responses : forall an d e from did d', Forall wf_resource an -> responses d e from did an = Ok d' -> exactly (Q d) (Q d').
Proof.
  induction an as [|a an IH]; intros d e from did d' W K; cbn [responses] in K; [injection K as <-; apply ex_refl|]. apply Forall_cons_iff in W as [Wa W].
  apply bind_ok in K as (r & _ & K). apply bind_ok in K as ([[d1 did1] skip] & K1 & K).
  assert (E1 : Q d1 = Q d).
  { destruct r as [r|]; [|injection K1 as <- _ _; reflexivity]. apply bind_ok in K1 as (x & _ & K1). destruct (negb _ && _ && _); [|injection K1 as <- _ _; reflexivity].
    destruct (recheck d e from did) as [d2 l] eqn:Er. assert (E2 : Q d2 = Q d).
    { unfold recheck in Er. assert (Rf : forall f d0, Q (refresh d0 e f) = Q d0) by (intros f d0; destruct (refresh_into d0 e f) as (i & tm & -> & _); reflexivity).
      destruct (is_local_spec (if did then d else refresh d e true) e from) as (i & tm & Ei & _). rewrite Ei in Er. injection Er as <- _. cbn [into Q]. destruct did; [reflexivity|apply Rf]. }
    destruct l; [injection K1 as <- _ _; exact E2|]. apply bind_ok in K1 as (s & _ & K1). injection K1 as <- _ _. exact E2. }
  rewrite <- E1 in *. destruct skip; [exact (IH d1 e from did1 d' W K)|]. cbv zeta in K.
  set (d2 := if has_recv d1 then add_received d1 a else d1) in *. assert (E2 : Q d2 = Q d1) by (unfold d2; destruct (has_recv d1); reflexivity).
  apply bind_ok in K as (q & K2 & K). rewrite <- E2 in *. apply (ex_trans _ q _ (ex_cache _ _ _ _ _ _ _ Wa K2)). exact (IH (with_Q d2 q) e from did1 d' W K).
Qed.

Lemma ex_qset : forall s q x y, qh s q = Some x -> q_nm y = q_nm x -> q_ty y = q_ty x -> q_cb y = q_cb x -> exactly s (qset s q y).
Proof.
  intros s q x y E N Ty C. split; [exists []; rewrite app_nil_r; split; [reflexivity|intros p []]|].
  intros p z. cbn [qset qh set_qh]. destruct (Nat.eqb_spec p q) as [->|D]; intros K; [injection K as <-; exists x; auto|exists z; auto].
Qed.
Lemma ex_reset : forall s q s', q_reset s q = Ok s' -> exactly s s'.
Proof.
  intros s q s' K. unfold q_reset in K. apply bind_ok in K as (x & E & K). unfold qget in E. destruct (qh s q) as [x0|] eqn:E0; [|discriminate]. injection E as ->. cbv zeta in K. set (t := reset_try _ _ _) in *.
  pose proof (ex_qset s q x (set_qnext x t 0) E0 eq_refl eq_refl eq_refl) as F. destruct (negb _ && _); injection K as <-; [|exact F]. apply (ex_trans _ _ _ F). apply ex_same; reflexivity.
Qed.
Lemma ex_query_loop : forall fuel s cb t frm cls q m best ret s' m' b' r', query_loop fuel s cb t frm cls q m best ret = Ok (s', m', b', r') -> exactly s s'.
Proof.
  induction fuel as [|fuel IH]; intros s cb t frm cls q m best ret s' m' b' r' K; cbn [query_loop] in K; [discriminate|].
  destruct q as [i|]; [|injection K as <- _ _ _; apply ex_refl]. apply bind_ok in K as (x & E & K). unfold qget in E. destruct (qh s i) as [x0|] eqn:E0; [|discriminate]. injection E as ->.
  destruct ((q_next x =? 0) || (t <? q_next x)).
  { apply bind_ok in K as (n & _ & K). exact (IH _ _ _ _ _ _ _ _ _ _ _ _ _ K). }
  destruct (q_tries x =? 3).
  - apply bind_ok in K as (s1 & K1 & K). apply bind_ok in K as (s2 & K2 & K). apply bind_ok in K as (n & _ & K).
    exact (ex_trans _ _ _ (ex_trans _ _ _ (ex_expire _ _ _ _ _ K1) (ex_reset _ _ _ K2)) (IH _ _ _ _ _ _ _ _ _ _ _ _ _ K)).
  - cbv zeta in K. apply bind_ok in K as (n & _ & K). exact (ex_trans _ _ _ (ex_qset s i x (set_qnext x (t + (q_tries x + 1)) (q_tries x + 1)) E0 eq_refl eq_refl eq_refl) (IH _ _ _ _ _ _ _ _ _ _ _ _ _ K)).
Qed.
Lemma ex_out : forall d e d' m n, mdnsd_out d e = Ok (d', m, n) -> exactly (Q d) (Q d').
Proof.
  intros d e d' m n K. unfold mdnsd_out in K. cbv zeta in K. destruct (uans (R (with_now d (e_now e)))) as [|u us].
  2:{ apply bind_ok in K as ([s m1] & _ & K). injection K as <- _ _. apply ex_refl. }
  apply bind_ok in K as ([[[s1 m1] seen1] r1] & _ & K). apply bind_ok in K as ([[[s2 m2] seen2] r2] & _ & K).
  destruct (is_shutdown _); [injection K as <- _ _; apply ex_refl|].
  apply bind_ok in K as ([[[s3 m3] seen3] r3] & _ & K). apply bind_ok in K as ([m4 seen4] & _ & K). destruct (negb (r3 =? 0)); [injection K as <- _ _; apply ex_refl|].
  apply bind_ok in K as ([[s5 m5] r5] & _ & K). destruct (negb (r5 =? 0)); [injection K as <- _ _; apply ex_refl|].
  apply bind_ok in K as ([[q6 m6] r6] & K6 & K).
  assert (F : exactly (Q d) q6).
  { unfold out_query in K6. destruct (negb _ && _); [|injection K6 as <- _ _; apply ex_refl]. apply bind_ok in K6 as ([m7 b7] & _ & K6). apply bind_ok in K6 as ([[[s8 m8] b8] r8] & K7 & K6). injection K6 as <- _ _.
    refine (ex_trans _ _ _ (ex_query_loop _ _ _ _ _ _ _ _ _ _ _ _ _ _ K7) _). apply ex_same; reflexivity. }
  destruct (_ <? _).
  - apply bind_ok in K as (q7 & K7 & K). injection K as <- _ _. exact (ex_trans _ _ _ F (ex_gc _ _ _ _ _ K7)).
  - injection K as <- _ _. exact F.
Qed.

Lemma new_exact : forall d e o x d', reach d -> legal d e o -> step d e o = Ok (d', x) -> exists T, calls_made (mkevent d e o x d') T /\
  forall p, In p (news T) -> exists y, registered d y /\ fst p = q_cb y /\ is_for y (a_name (snd p)) (a_type (snd p)).
Proof.
  intros d e o x d' K L E. destruct (reach_dinv d K) as (qs & H & C).
  assert (Fin : (exists T, told (Q d') = told (Q d) ++ T /\ forall p, In p T -> hears (Q d) p) -> exists T, calls_made (mkevent d e o x d') T /\
    forall p, In p (news T) -> exists y, registered d y /\ fst p = q_cb y /\ is_for y (a_name (snd p)) (a_type (snd p))).
  { intros (T & T1 & T2). exists T. split; [exact T1|]. intros p I. unfold news in I. apply filter_In in I as [I N]. apply negb_true_iff in N. apply Z.eqb_neq in N. destruct (T2 p I N) as (q & y & Ey & B & F).
    exists y. split; [|split; [congruence|exact F]]. exists q. split; [|exact Ey]. destruct C as (C1 & _). apply (qi_live _ C1). congruence. }
  apply Fin. destruct (records_only o) eqn:Ro.
  { destruct (records_only_Q d e o d' x Ro E) as [-> _]. exists []. rewrite app_nil_r. split; [reflexivity|intros p []]. }
  destruct o; try discriminate; destruct L as [N L]; cbn [step] in E.
  - destruct C as (C1 & _). destruct (mdnsd_query_spec (Q d) (fst (now d)) host type answer C1) as (q' & o & E' & _ & _ & _ & _ & F1 & F2 & _). rewrite E' in E. injection E as <- _.
    exists []. rewrite app_nil_r. split; [assumption|intros p []].
  - apply bind_ok in E as ([d2 n] & E' & E). injection E as <- _. destruct (mdnsd_in_spec d e m from qs H C N L) as (d3 & n3 & qs' & E3 & A & _).
    rewrite E' in E3. injection E3 as <- <-. destruct A as [?|i tm|i0 tm0 d' qs' ? ? ? ? E|i0 tm0 d' qs' ? ? ? Qr E]; [apply ex_told, ex_refl|apply ex_told, ex_refl| |].
    + set (d1 := into (with_now d (e_now e)) (R d) i0 tm0 (received d)) in *.
      destruct (questions_sound (m_qd m) d1 e from false (m_id m) (m_an m) qs H ltac:(discriminate)) as (s' & i' & tm' & L' & b & qs2 & Cf & E2 & _).
      rewrite E in E2. injection E2 as ->. apply (ex_told _ _ (ex_refl _)).
    + exact (ex_told _ _ (ex_responses (m_an m) (into (with_now d (e_now e)) (R d) i0 tm0 (received d)) e from false d' L E)).
  - apply bind_ok in E as ([[d2 m] n] & E' & E). injection E as <- _. exact (ex_told _ _ (ex_out _ _ _ _ _ E')).
  - apply bind_ok in E as ([d2 t] & E' & E). injection E as <- _. rewrite (sleep_Q _ _ _ _ E'). apply (ex_told _ _ (ex_refl _)).
Qed.

Lemma any_deaf : forall d e o x d' k, reach d -> legal d e o -> step d e o = Ok (d', x) -> (forall y, registered d y -> q_cb y = k -> q_ty y = QTYPE_ANY) ->
  exists T, calls_made (mkevent d e o x d') T /\ forall v, In (k, v) (news T) -> a_type v = QTYPE_ANY.
Proof.
  intros d e o x d' k K L E A. destruct (new_exact d e o x d' K L E) as (T & T1 & T2). exists T. split; [exact T1|]. intros v I. destruct (T2 _ I) as (y & Ry & Cy & (_ & Ty)). cbn [fst snd] in *.
  rewrite <- Ty. apply A; congruence.
Qed.
