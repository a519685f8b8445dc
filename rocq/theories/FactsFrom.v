(* Supporting proofs for PropFrom.v. *)
From Verif Require Import Base Lemmas Hash HashProofs Wire Rec Qry Out In Api RecInv RecSafe RecOps RecAddr OutSafe QryInv QryOps CacheOps QryReg QryLoop InSafe InLoop InResp OutPub OutProbe OutExtra OutAll OutSpec Shut DaemonInv SpecDaemon FactsCalls FactsLookup FactsItems FactsIn FactsOut SpecCache SpecFrom FactsCache FactsTold.

Section Pure.
Variable P : answer -> Prop.
Hypothesis Pttl : forall a t, P a -> P (set_ttl a t).

Definition pure (s : qrys) : Prop := (forall i c, In c (centries s i) -> P (c_rr c)) /\ forall p, In p (told s) -> P (snd p).

Lemma pure_set : forall s i l, pure s -> (forall c, In c l -> P (c_rr c)) -> pure (set_centries s i l).
Proof.
  intros s i l [A B] C. split; [|exact B]. intros j c I. rewrite centries_set in I. destruct (Nat.eqb j i); [|exact (A j c I)]. destruct (Nat.ltb _ _); [exact (C c I)|destruct I].
Qed.
Lemma pure_same : forall s s', pure s -> cache s' = cache s -> told s' = told s -> pure s'.
Proof. intros s s' [A B] E1 E2. split; [|rewrite E2; exact B]. intros i c I. unfold centries in I. rewrite E1 in I. exact (A i c I). Qed.
Lemma pure_map : forall s i f, pure s -> (forall c, P (c_rr c) -> P (c_rr (f c))) -> pure (set_centries s i (map f (centries s i))).
Proof. intros s i f H F. apply pure_set; [exact H|]. intros c I. apply in_map_iff in I as (x & <- & I). apply F. exact (proj1 H i x I). Qed.
Lemma pure_done : forall s q s', pure s -> q_done s q = Ok s' -> pure s'.
Proof.
  intros s q s' H K. unfold q_done in K. apply bind_ok in K as (x & _ & K). cbv zeta in K. destruct (negb _ || negb _); [discriminate|]. injection K as <-.
  apply (pure_same (set_centries s (cbucket (q_nm x)) (map (fun c => if c_match (q_nm x) (q_ty x) c then set_cq c None else c) (centries s (cbucket (q_nm x)))))); [|reflexivity|reflexivity].
  apply pure_map; [exact H|]. intros c Pc. destruct (c_match _ _ c); exact Pc.
Qed.
Lemma pure_answer : forall s now cb c s', pure s -> P (c_rr c) -> q_answer s now cb c = Ok s' -> pure s'.
Proof.
  intros s now cb c s' H Pc K. unfold q_answer in K. cbv zeta in K. set (t := a_ttl _) in K at 1. set (s1 := set_centries s _ _) in K.
  assert (H1 : pure s1) by (apply pure_map; [exact H|]; intros x Px; destruct (Nat.eqb _ _); [apply Pttl; exact Px|exact Px]).
  destruct (c_q c) as [q|]; [|discriminate]. apply bind_ok in K as (x & _ & K).
  assert (H2 : pure (tell s1 (q_cb x) (c_rr (if a_ttl (c_rr c) <=? now then set_cttl c 0 else c)))).
  { split; [exact (proj1 H1)|]. intros p I. cbn [tell told] in I. apply in_app_or in I as [I|[<-|[]]]; [exact (proj2 H1 p I)|]. cbn [snd]. destruct (a_ttl (c_rr c) <=? now); [apply Pttl; exact Pc|exact Pc]. }
  destruct (cb (ncb s1)); [exact (pure_done _ _ _ H2 K)|injection K as <-; exact H2].
Qed.
Lemma pure_expire_loop : forall ids s now cb i s', pure s -> expire_loop s now cb i ids = Ok s' -> pure s'.
Proof.
  induction ids as [|id ids IH]; intros s now cb i s' H K; cbn [expire_loop] in K; [injection K as <-; exact H|].
  destruct (find_entry id (centries s i)) as [c|] eqn:Fe; [|discriminate]. destruct (find_entry_some _ _ _ Fe) as [Ic _]. destruct (a_ttl (c_rr c) <=? now); [|exact (IH s now cb i s' H K)].
  cbv zeta in K. apply bind_ok in K as (s2 & K2 & K). apply (IH s2 now cb i s'); [|exact K].
  assert (H1 : pure (set_centries s i (drop_entry id (centries s i)))) by (apply pure_set; [exact H|]; intros x I; apply filter_In in I as [I _]; exact (proj1 H i x I)).
  destruct (c_q c); [|injection K2 as <-; exact H1]. exact (pure_answer _ _ _ _ _ H1 (proj1 H i c Ic) K2).
Qed.
Lemma pure_gc : forall is s now cb s', pure s -> gc_loop s now cb is = Ok s' -> pure s'.
Proof. induction is as [|i is IH]; intros s now cb s' H K; cbn [gc_loop] in K; [injection K as <-; exact H|]. apply bind_ok in K as (s1 & K1 & K2). exact (IH s1 now cb s' (pure_expire_loop _ _ _ _ _ _ H K1) K2). Qed.
Lemma pure_delete : forall n s now cb i r s', pure s -> delete_loop n s now cb i r = Ok s' -> pure s'.
Proof.
  induction n as [|n IH]; intros s now cb i r s' H K; cbn [delete_loop] in K; [discriminate|]. destruct (find _ (centries s i)) as [c|]; [|injection K as <-; exact H].
  cbv zeta in K. apply bind_ok in K as (s2 & K1 & K2). apply (IH s2 now cb i r s'); [|exact K2]. refine (pure_expire_loop _ _ _ _ _ _ _ K1). apply pure_map; [exact H|]. intros x Px. destruct (Nat.eqb _ _); [apply Pttl|]; exact Px.
Qed.
Lemma pure_cache : forall s now cb cls r from s', pure s -> (rr_ttl r <> 0 -> forall t a, cache_answer r t from = Some a -> P a) -> cache_rr s now cb cls r from = Ok s' -> pure s'.
Proof.
  intros s now cb cls r from s' H Pr K. unfold cache_rr in K. cbv zeta in K. set (i := cbucket (rr_name r)) in *. apply bind_ok in K as (s1 & K1 & K).
  assert (H1 : pure s1).
  { destruct (rr_class r =? 32768 + cls); [|injection K1 as <-; exact H]. refine (pure_expire_loop _ _ _ _ _ _ _ K1). apply pure_map; [exact H|]. intros x Px. destruct (c_match _ _ x); [apply Pttl|]; exact Px. }
  destruct (rr_ttl r =? 0) eqn:T0; [exact (pure_delete _ _ _ _ _ _ _ H1 K)|]. destruct (find _ (centries s1 i)) as [c|].
  - injection K as <-. apply pure_map; [exact H1|]. intros x Px. destruct (Nat.eqb _ _); [apply Pttl|]; exact Px.
  - destruct (negb _ && _); [injection K as <-; exact H1|]. destruct (cache_answer r _ from) as [a|] eqn:Ea; [|discriminate]. apply bind_ok in K as (o & _ & K).
    assert (Pa : P a) by (apply (Pr ltac:(lia) _ _ Ea)). set (c := mkcached (cfresh s1) a o) in *. set (s2 := mkqrys _ _ _ _ _ _ _ _ _) in K.
    assert (H2 : pure s2).
    { apply (pure_same (set_centries s1 i (c :: centries s1 i))); [|reflexivity|reflexivity]. apply pure_set; [exact H1|]. intros x [<-|I]; [exact Pa|exact (proj1 H1 i x I)]. }
    destruct o; [|injection K as <-; exact H2]. exact (pure_answer s2 now cb c s' H2 Pa K).
Qed.
Lemma pure_responses : forall an d e from did d', pure (Q d) -> (forall r, In r an -> rr_ttl r <> 0 -> forall t a, cache_answer r t from = Some a -> P a) -> responses d e from did an = Ok d' -> pure (Q d').
Proof.
  induction an as [|a an IH]; intros d e from did d' H Pr K; cbn [responses] in K; [injection K as <-; exact H|].
  apply bind_ok in K as (r & _ & K). apply bind_ok in K as ([[d1 did1] skip] & K1 & K).
  assert (E1 : Q d1 = Q d).
  { destruct r as [r|]; [|injection K1 as <- _ _; reflexivity]. apply bind_ok in K1 as (x & _ & K1). destruct (negb _ && _ && _); [|injection K1 as <- _ _; reflexivity].
    destruct (recheck d e from did) as [d2 l] eqn:Er. assert (E2 : Q d2 = Q d).
    { unfold recheck in Er. assert (Rf : forall f d0, Q (refresh d0 e f) = Q d0) by (intros f d0; destruct (refresh_into d0 e f) as (i & tm & -> & _); reflexivity).
      destruct (is_local_spec (if did then d else refresh d e true) e from) as (i & tm & Ei & _). rewrite Ei in Er. injection Er as <- _. cbn [into Q]. destruct did; [reflexivity|apply Rf]. }
    destruct l; [injection K1 as <- _ _; exact E2|]. apply bind_ok in K1 as (s & _ & K1). injection K1 as <- _ _. exact E2. }
  rewrite <- E1 in *. assert (Pr' : forall r, In r an -> rr_ttl r <> 0 -> forall t a, cache_answer r t from = Some a -> P a) by (intros r0 I; apply Pr; right; exact I).
  destruct skip; [exact (IH d1 e from did1 d' H Pr' K)|]. cbv zeta in K.
  set (d2 := if has_recv d1 then add_received d1 a else d1) in *. assert (E2 : Q d2 = Q d1) by (unfold d2; destruct (has_recv d1); reflexivity).
  apply bind_ok in K as (q & K2 & K). rewrite <- E2 in *. apply (IH (with_Q d2 q) e from did1 d'); [|exact Pr'|exact K].
  exact (pure_cache _ _ _ _ _ _ _ H (Pr a (or_introl eq_refl)) K2).
Qed.
Lemma pure_reset : forall s q s', pure s -> q_reset s q = Ok s' -> pure s'.
Proof. intros s q s' H K. unfold q_reset in K. apply bind_ok in K as (x & _ & K). cbv zeta in K. destruct (negb _ && _); injection K as <-; exact H. Qed.
Lemma pure_query_loop : forall fuel s cb t frm cls q m best ret s' m' b' r', pure s -> query_loop fuel s cb t frm cls q m best ret = Ok (s', m', b', r') -> pure s'.
Proof.
  induction fuel as [|fuel IH]; intros s cb t frm cls q m best ret s' m' b' r' H K; cbn [query_loop] in K; [discriminate|].
  destruct q as [i|]; [|injection K as <- _ _ _; exact H]. apply bind_ok in K as (x & _ & K). destruct ((q_next x =? 0) || (t <? q_next x)).
  { apply bind_ok in K as (n & _ & K). exact (IH _ _ _ _ _ _ _ _ _ _ _ _ _ H K). }
  destruct (q_tries x =? 3).
  - apply bind_ok in K as (s1 & K1 & K). apply bind_ok in K as (s2 & K2 & K). apply bind_ok in K as (n & _ & K). exact (IH _ _ _ _ _ _ _ _ _ _ _ _ _ (pure_reset _ _ _ (pure_expire_loop _ _ _ _ _ _ H K1) K2) K).
  - cbv zeta in K. apply bind_ok in K as (n & _ & K). refine (IH _ _ _ _ _ _ _ _ _ _ _ _ _ _ K). exact H.
Qed.
Lemma pure_out : forall d e d' m n, pure (Q d) -> mdnsd_out d e = Ok (d', m, n) -> pure (Q d').
Proof.
  intros d e d' m n G K. unfold mdnsd_out in K. cbv zeta in K. destruct (uans (R (with_now d (e_now e)))) as [|u us].
  2:{ apply bind_ok in K as ([s m1] & _ & K). injection K as <- _ _. exact G. }
  apply bind_ok in K as ([[[s1 m1] seen1] r1] & _ & K). apply bind_ok in K as ([[[s2 m2] seen2] r2] & _ & K).
  destruct (is_shutdown _); [injection K as <- _ _; exact G|].
  apply bind_ok in K as ([[[s3 m3] seen3] r3] & _ & K). apply bind_ok in K as ([m4 seen4] & _ & K). destruct (negb (r3 =? 0)); [injection K as <- _ _; exact G|].
  apply bind_ok in K as ([[s5 m5] r5] & _ & K). destruct (negb (r5 =? 0)); [injection K as <- _ _; exact G|].
  apply bind_ok in K as ([[q6 m6] r6] & K6 & K). assert (F : pure q6).
  { unfold out_query in K6. destruct (negb _ && _); [|injection K6 as <- _ _; exact G]. apply bind_ok in K6 as ([m7 b7] & _ & K6). apply bind_ok in K6 as ([[[s7 m8] b8] r8] & K7 & K6). injection K6 as <- _ _.
    exact (pure_query_loop _ _ _ _ _ _ _ _ _ _ _ _ _ _ G K7). }
  destruct (_ <? _).
  - apply bind_ok in K as (q7 & K7 & K). injection K as <- _ _. exact (pure_gc _ _ _ _ _ F K7).
  - injection K as <- _ _. exact F.
Qed.
Lemma pure_query : forall s now host type answer s', pure s -> mdnsd_query s now host type answer = Ok s' -> pure s'.
Proof.
  intros s now host type answer s' H K. unfold mdnsd_query in K. apply bind_ok in K as (f & _ & K). destruct f as [q|], answer as [cb|].
  - apply bind_ok in K as (x & _ & K). injection K as <-. exact H.
  - exact (pure_done _ _ _ H K).
  - cbv zeta in K. set (s1 := mkqrys _ _ _ _ _ _ _ _ _) in K. apply bind_ok in K as (s2 & K2 & K). apply bind_ok in K as (x & _ & K). injection K as <-. apply (pure_reset s1 (qfresh s) s2); [|exact K2].
    apply (pure_same (set_centries s (cbucket host) (map (fun c => if c_match host type c then set_cq c (Some (qfresh s)) else c) (centries s (cbucket host))))); [|reflexivity|reflexivity].
    apply pure_map; [exact H|]. intros c Pc. destruct (c_match _ _ c); exact Pc.
  - injection K as <-. exact H.
Qed.
Lemma pure_step : forall d e o d' x, reach d -> legal d e o -> step d e o = Ok (d', x) -> pure (Q d) ->
  (forall m from r t a, o = OIn m from -> ~ own d from -> (forall i, snapshot d e = Some i -> ~ of_interface i from) -> h_qr (m_header m) <> 0 -> In r (m_an m) -> rr_ttl r <> 0 -> cache_answer r t from = Some a -> P a) -> pure (Q d').
Proof.
  intros d e o d' x K L E G Pm. destruct (records_only o) eqn:Ro.
  { destruct (records_only_Q d e o d' x Ro E) as [-> _]. exact G. }
  destruct o; try discriminate; pose proof L as [N L'].
  - cbn [step] in E. apply bind_ok in E as (q & E' & E). injection E as <- _. exact (pure_query _ _ _ _ _ _ G E').
  - destruct (local_dec d e from) as [Lo|[F1 F2]].
    { destruct (own_ignored d e m from Lo) as (d2 & n & E2 & _ & Eq & _). rewrite E2 in E. injection E as <- _. rewrite Eq. exact G. }
    cbn [step] in E. apply bind_ok in E as ([d2 n] & E' & E). injection E as <- _. destruct (reach_dinv d K) as (qs & H & C). destruct (mdnsd_in_spec d e m from qs H C N L') as (d3 & n3 & qs' & E3 & A & _).
    rewrite E' in E3. injection E3 as <- <-. destruct A as [?|i tm|i0 tm0 d' qs' ? ? ? ? E|i0 tm0 d' qs' ? ? ? Qr E]; [exact G|exact G| |].
    + set (d1 := into (with_now d (e_now e)) (R d) i0 tm0 (received d)) in *.
      destruct (questions_sound (m_qd m) d1 e from false (m_id m) (m_an m) qs H ltac:(discriminate)) as (s' & i' & tm' & L2 & b & qs2 & Cf & E2 & _).
      rewrite E in E2. injection E2 as ->. exact G.
    + apply (pure_responses (m_an m) (into (with_now d (e_now e)) (R d) i0 tm0 (received d)) e from false d' G); [|exact E]. intros r Ir Tr t a Ea. exact (Pm m from r t a eq_refl F1 F2 Qr Ir Tr Ea).
  - cbn [step] in E. apply bind_ok in E as ([[d2 m] n] & E' & E). injection E as <- _. exact (pure_out _ _ _ _ _ G E').
  - cbn [step] in E. apply bind_ok in E as ([d2 t] & E' & E). injection E as <- _. rewrite (sleep_Q _ _ _ _ E'). exact G.
Qed.
End Pure.

Lemma answer_said : forall r t from a, wf_resource r -> cache_answer r t from = Some a -> said_by r from a.
Proof.
  intros r t from a W E. destruct (cache_answer_ok r t from W) as (b & Eb & Kb & _). assert (b = a) by congruence. subst b. split; [apply rkey_iff; assumption|]. clear Kb Eb. unfold cache_answer in E. cbv zeta in E.
  destruct (rr_type r =? QTYPE_A) eqn:T1. { injection E as <-. split; [reflexivity|]. assert (is_name_type (rr_type r) = false) as -> by (apply Z.eqb_eq in T1; rewrite T1; reflexivity). split; discriminate. }
  destruct (rr_type r =? QTYPE_AAAA) eqn:T2. { injection E as <-. split; [reflexivity|]. assert (is_name_type (rr_type r) = false) as -> by (apply Z.eqb_eq in T2; rewrite T2; reflexivity). split; discriminate. }
  destruct (is_name_type (rr_type r)).
  - destruct (known_name r) as [n|]; [|discriminate]. injection E as <-. destruct (Z.eqb_spec (family from) AF_INET6) as [Fa|Fa]; (split; [reflexivity|]; split; intros _ F; [|]); try contradiction; reflexivity.
  - destruct (rr_type r =? QTYPE_SRV).
    + destruct (known_name r) as [n|]; [|discriminate]. destruct (known_srv r) as [[p w] q]. injection E as <-. split; [reflexivity|]. split; discriminate.
    + injection E as <-. split; [reflexivity|]. split; discriminate.
Qed.
Lemma said_ttl : forall r from a t, said_by r from a -> said_by r from (set_ttl a t).
Proof. intros r from a t H. exact H. Qed.
Lemma heard_ttl : forall l a t, heard_from l a -> heard_from l (set_ttl a t).
Proof. intros l a t (ev & m & from & r & H). exists ev, m, from, r. exact H. Qed.
Lemma heard_more : forall l ev a, heard_from l a -> heard_from (l ++ [ev]) a.
Proof. intros l ev a (ev0 & m & from & r & I & H). exists ev0, m, from, r. split; [apply in_or_app; auto|exact H]. Qed.

Lemma history_pure : forall t cls frm l d, 0 <= fst t -> history (mdnsd_new t cls frm) l d -> pure (heard_from l) (Q d).
Proof.
  intros t cls frm l d N Hh. induction Hh as [|l d e o x d' Hh IH L E].
  - split; [intros i c I; rewrite cache_new in I; destruct I|intros p []].
  - pose proof (history_reach _ _ _ (reach_new t cls frm N) Hh) as K. apply (pure_step _ (fun a t => heard_ttl _ a t) d e o d' x K L E).
    + destruct IH as [A B]. split; [intros i c I; apply heard_more; exact (A i c I)|intros p I; apply heard_more; exact (B p I)].
    + intros m from r tt a -> F1 F2 Qr Ir Tr Ea. exists (mkevent d e (OIn m from) x d'), m, from, r. split; [apply in_or_app; right; left; reflexivity|]. cbn [ev_call ev_before ev_env].
      split; [reflexivity|]. split; [exact Qr|]. split; [exact Ir|]. split; [exact Tr|]. split; [|auto]. apply (answer_said r tt from a); [|exact Ea]. exact (proj1 (Forall_forall _ _) (proj2 L) r Ir).
Qed.
Lemma cache_heard : forall t cls frm l d, 0 <= fst t -> history (mdnsd_new t cls frm) l d -> forall c, cache_holds d c -> heard_from l (c_rr c).
Proof. intros t cls frm l d N Hh c I. apply (holds_bucket _ _ (history_reach _ _ _ (reach_new t cls frm N) Hh)) in I as (i & I). exact (proj1 (history_pure _ _ _ _ _ N Hh) i c I). Qed.
Lemma told_heard : forall t cls frm l d, 0 <= fst t -> history (mdnsd_new t cls frm) l d -> forall p, In p (told (Q d)) -> heard_from l (snd p).
Proof. intros t cls frm l d N Hh. exact (proj2 (history_pure _ _ _ _ _ N Hh)). Qed.
