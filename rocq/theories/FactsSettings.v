(* Proofs about the address of the host. *)
From Verif Require Import Base Lemmas Hash HashProofs Wire Rec Qry Out In Api RecInv RecSafe RecOps RecAddr OutSafe OutExtra QryInv QryOps CacheOps QryReg QryLoop InSafe InLoop InResp OutAll OutSpec Shut DaemonInv SpecDaemon SpecLife SpecAnswer FactsCalls FactsItems FactsEvolve FactsIn FactsOut FactsFrame FactsDrain FactsFate FactsLife FactsDue SpecData FactsData FactsUni Settings SpecSettings.

Lemma other_addr : forall d e o d' x, (forall m from, o <> OIn m from) -> o <> OOut -> step d e o = Ok (d', x) ->
  d_addr d' = match o with OSetAddress i => i | _ => d_addr d end /\ d_addr6 d' = match o with OSetAddress6 i => i | _ => d_addr6 d end.
Proof.
  intros d e o d' x Ni No E. destruct o; cbn [step] in E; try (destruct (Ni _ _ eq_refl)); try (destruct (No eq_refl));
    try (unfold on_recs, on_new in E; apply bind_ok in E as (s & Es & E); try destruct s; injection E as <- _; split; reflexivity); try (injection E as <- _; split; reflexivity).
  - destruct (bytes_eqb (d_addr d) i) eqn:B; [injection E as <- _; apply bytes_eqb_eq in B; auto|]. apply bind_ok in E as (s & Es & E). injection E as <- _. split; reflexivity.
  - destruct (bytes_eqb (d_addr6 d) i) eqn:B; [injection E as <- _; apply bytes_eqb_eq in B; auto|]. apply bind_ok in E as (s & Es & E). injection E as <- _. split; reflexivity.
  - apply bind_ok in E as ([d1 t] & Es & E). injection E as <- _. unfold mdnsd_sleep in Es.
    repeat (first [apply bind_ok in Es as (? & _ & Es)|match type of Es with context [if ?b then _ else _] => destruct b end|match type of Es with context [match ?b with _ => _ end] => destruct b end]; cbv zeta in Es); try (injection Es as <- _; split; reflexivity); try discriminate Es.
Qed.
Lemma step_addr : forall d e o d' x, reach d -> legal d e o -> step d e o = Ok (d', x) ->
  d_addr d' = match o with OSetAddress i => i | _ => d_addr d end /\ d_addr6 d' = match o with OSetAddress6 i => i | _ => d_addr6 d end.
Proof.
  intros d e o d' x K L E. destruct (reach_dinv d K) as (qs & H & C).
  assert (W : {o = OOut} + {o <> OOut}) by (destruct o; auto; right; discriminate). destruct W as [->|No].
  { destruct (out_result d e d' x E) as (m & n & ->). destruct (out_given d e d' m n qs H C L E) as (qs' & O & _). destruct O; split; reflexivity. }
  assert (W : (forall m from, o <> OIn m from) \/ exists m from, o = OIn m from) by (destruct o; eauto; left; discriminate). destruct W as [Ni|(m & from & ->)]; [exact (other_addr d e o d' x Ni No E)|].
  destruct L as [N W]. destruct (mdnsd_in_spec d e m from qs H C N W) as (d2 & n & qs' & E' & A & H' & C' & _). cbn [step] in E. rewrite E' in E. cbn [bind] in E. injection E as <- <-.
  destruct A as [?|i tm|i0 tm0 d2 qs' ? ? ? Qr EA|i0 tm0 d2 qs' ? ? ? ? EA]; [split; reflexivity..| |].
  - set (d1 := into (with_now d (e_now e)) (R d) i0 tm0 (received d)) in *.
    destruct (questions_sound (m_qd m) d1 e from false (m_id m) (m_an m) qs H ltac:(discriminate)) as (s' & i' & tm' & L' & b & qs2 & Cf & E2 & _). rewrite EA in E2. injection E2 as ->. split; reflexivity.
  - set (d1 := into (with_now d (e_now e)) (R d) i0 tm0 (received d)) in *. destruct C as (C1 & C2 & C3 & C4).
    destruct (responses_sound (m_an m) d1 e from false qs H C1 N W ltac:(discriminate)) as (s' & q' & i' & tm' & L' & qs2 & U & Cf & E2 & _). rewrite EA in E2. injection E2 as ->. split; reflexivity.
Qed.
Lemma history_addr : forall t0 cls frm l d, 0 <= fst t0 -> history (mdnsd_new t0 cls frm) l d -> mdnsd_get_address d = address_set l /\ mdnsd_get_ipv6_address d = address6_set l.
Proof.
  intros t0 cls frm l d N Hh. unfold mdnsd_get_address, mdnsd_get_ipv6_address. induction Hh as [|l d e o x d' Hh IH L E]; [split; reflexivity|].
  pose proof (history_reach _ _ _ (reach_new t0 cls frm N) Hh) as K. destruct IH as [I4 I6]. destruct (step_addr d e o d' x K L E) as [A B]. unfold address_set, address6_set. rewrite !fold_left_app. cbn [fold_left ev_call].
  fold (address_set l) (address6_set l). rewrite A, B, I4, I6. destruct o; split; reflexivity.
Qed.

(* every record of the type *)
Lemma all_forward : forall l s qs t ty i s', rinv s qs -> all_live (hp s) l -> is_zero i = false -> set_all s t l ty i = Ok s' -> forall x, hp s x <> None -> hp s' x <> None.
Proof.
  induction l as [|x l IH]; intros s qs t ty i s' H L Z E y Ly; cbn [set_all] in E; [injection E as <-; exact Ly|].
  apply all_live_cons in L as [[X EX] L]. rewrite (hget_some _ _ _ EX) in E. cbn [bind] in E. rewrite Z in E. destruct (Z.eqb_spec (a_type (rr X)) ty) as [K|K]; [|cbn [bind] in E; exact (IH s qs t ty i s' H L Z E y Ly)].
  fold (set_addr s t ty x i) in E. rewrite set_addr_eq in E.
  destruct (set_onward (typed s ty) s qs t x _ _ H (keeps_addr ty i) EX) as (s1 & qs1 & Y & E1 & H1 & O1 & B & EY & _); [exists X; auto|]. rewrite E1 in E. cbn [bind] in E.
  assert (Lv : forall z, hp s z <> None -> hp s1 z <> None) by (intros z Lz; destruct (Nat.eq_dec z x) as [->|N]; [congruence|]; rewrite <- (hbut_live x _ _ z B N); exact Lz).
  apply (IH s1 qs1 t ty i s' H1 (fun z I => Lv z (L z I)) Z E y (Lv y Ly)).
Qed.
Lemma set_all_out : forall l s t ty i s', is_zero i = true -> set_all s t l ty i = Ok s' -> forall x, ~ In x l -> forall X, hp s x = Some X -> exists Y, hp s' x = Some Y /\ rr Y = rr X.
Proof.
  induction l as [|y l IH]; intros s t ty i s' Z E x N X EX; cbn [set_all] in E; [injection E as <-; eauto|]. apply bind_ok in E as (X0 & EX0 & E). rewrite Z in E. apply bind_ok in E as (s1 & E1 & E).
  apply (IH s1 t ty i s' Z E x); [intros I; apply N; right; exact I|]. destruct (a_type (rr X0) =? ty); injection E1 as <-; [|exact EX]. cbn [set_head set_hp hp]. unfold hset. destruct (Nat.eqb_spec x y) as [->|D]; [destruct N; left; reflexivity|exact EX].
Qed.
Lemma zero_exact : forall l s t ty i s', is_zero i = true -> set_all s t l ty i = Ok s' -> forall x X, hp s x = Some X -> exists Y, hp s' x = Some Y /\ (In x l -> rr Y = if a_type (rr X) =? ty then set_ttl (rr X) 0 else rr X) /\ (rr Y = rr X \/ rr Y = set_ttl (rr X) 0).
Proof.
  induction l as [|y l IH]; intros s t ty i s' Z E x X EX; cbn [set_all] in E; [injection E as <-; exists X; split; [exact EX|]; split; [intros []|auto]|]. apply bind_ok in E as (X0 & EX0 & E). apply hget_ok in EX0. rewrite Z in E. apply bind_ok in E as (s1 & E1 & E).
  assert (St : exists X1, hp s1 x = Some X1 /\ (x = y -> rr X1 = if a_type (rr X) =? ty then set_ttl (rr X) 0 else rr X) /\ (rr X1 = rr X \/ rr X1 = set_ttl (rr X) 0) /\ (x <> y -> rr X1 = rr X)).
  { destruct (a_type (rr X0) =? ty) eqn:T; injection E1 as <-.
    - cbn [set_head set_hp hp]. unfold hset. destruct (Nat.eqb_spec x y) as [->|D].
      + rewrite EX in EX0. injection EX0 as <-. eexists. split; [reflexivity|]. cbn [set_link set_rr rr]. rewrite T. split; [reflexivity|]. split; [auto|congruence].
      + exists X. split; [exact EX|]. split; [contradiction|auto].
    - exists X. split; [exact EX|]. split; [|auto]. intros ->. rewrite EX in EX0. injection EX0 as <-. rewrite T. reflexivity. }
  destruct St as (X1 & EX1 & A1 & A2 & A3). destruct (IH s1 t ty i s' Z E x X1 EX1) as (Y & EY & B1 & B2). exists Y. split; [exact EY|].
  assert (T1 : a_type (rr X1) = a_type (rr X)) by (destruct A2 as [-> | ->]; reflexivity). split.
  - intros I. destruct (Nat.eq_dec x y) as [->|D].
    + rewrite (A1 eq_refl) in B1, B2. destruct (a_type (rr X) =? ty) eqn:T; [destruct B2 as [-> | ->]; reflexivity|]. destruct (in_dec Nat.eq_dec y l) as [J|J]; [rewrite (B1 J), T; reflexivity|].
      destruct (set_all_out l s1 t ty i s' Z E y J X1 EX1) as (Y' & EY' & Q). rewrite EY in EY'. injection EY' as <-. rewrite Q, (A1 eq_refl). reflexivity.
    + destruct I as [->|I]; [contradiction|]. rewrite (B1 I), (A3 D). reflexivity.
  - destruct A2 as [A2|A2]; rewrite A2 in *; destruct B2 as [B2|B2]; rewrite B2; auto.
Qed.

Lemma set_rewrites : forall d t ty i s', reach d -> ty = QTYPE_A \/ ty = QTYPE_AAAA -> set_all (R d) t (concat (pub (R d))) ty i = Ok s' ->
  rewritten d (with_R d s') ty (if is_zero i then withdrawn_rr else if ty =? QTYPE_A then with_ip i else with_ip6 i).
Proof.
  intros d t ty i s' K Ty E. destruct (reach_dinv d K) as (qs & H & _).
  assert (In_ : forall r X, hp (R d) r = Some X -> In r (concat (pub (R d)))) by (intros r X EX; apply (pk_live _ (ri_p _ _ H)); congruence).
  assert (Lv : all_live (hp (R d)) (concat (pub (R d)))) by (intros r I; apply (pk_live _ (ri_p _ _ H)); exact I).
  unfold rewritten, record. cbn [with_R R]. destruct (is_zero i) eqn:Z.
  - split.
    + intros r X EX. destruct (zero_exact _ _ _ _ _ _ Z E r X EX) as (Y & EY & A & _). exists Y. split; [exact EY|exact (A (In_ r X EX))].
    + intros r Y EY. destruct (FactsData.set_all_zero _ _ _ _ _ _ Z E r Y EY) as (X & EX & _). eauto.
  - split.
    + intros r X EX. destruct (hp s' r) as [Y|] eqn:EY; [|exfalso; apply (all_forward _ _ _ _ _ _ _ H Lv Z E r); congruence]. exists Y. split; [reflexivity|].
      destruct (set_all_rrs _ _ _ _ _ _ Ty Z E r Y EY) as (X' & EX' & A & _). rewrite EX in EX'. injection EX' as <-. rewrite (A (In_ r X EX)). destruct Ty as [-> | ->]; reflexivity.
    + intros r Y EY. destruct (set_all_rrs _ _ _ _ _ _ Ty Z E r Y EY) as (X & EX & _). eauto.
Qed.
Lemma set_rewrites_addr : forall d e i d' x, reach d -> legal d e (OSetAddress i) -> step d e (OSetAddress i) = Ok (d', x) ->
  (i = mdnsd_get_address d -> d' = d) /\ (i <> mdnsd_get_address d -> rewritten d d' QTYPE_A (if is_zero i then withdrawn_rr else with_ip i)).
Proof.
  intros d e i d' x K L E. cbn [step] in E. unfold mdnsd_get_address. destruct (bytes_eqb (d_addr d) i) eqn:B.
  - apply bytes_eqb_eq in B. injection E as <- _. split; [reflexivity|congruence].
  - split; [intros ->; rewrite bytes_eqb_refl in B; discriminate B|]. intros _. apply bind_ok in E as (s & Es & E). injection E as <- _. exact (set_rewrites d _ QTYPE_A i s K (or_introl eq_refl) Es).
Qed.
Lemma set_rewrites_addr6 : forall d e i d' x, reach d -> legal d e (OSetAddress6 i) -> step d e (OSetAddress6 i) = Ok (d', x) ->
  (i = mdnsd_get_ipv6_address d -> d' = d) /\ (i <> mdnsd_get_ipv6_address d -> rewritten d d' QTYPE_AAAA (if is_zero i then withdrawn_rr else with_ip6 i)).
Proof.
  intros d e i d' x K L E. cbn [step] in E. unfold mdnsd_get_ipv6_address. destruct (bytes_eqb (d_addr6 d) i) eqn:B.
  - apply bytes_eqb_eq in B. injection E as <- _. split; [reflexivity|congruence].
  - split; [intros ->; rewrite bytes_eqb_refl in B; discriminate B|]. intros _. apply bind_ok in E as (s & Es & E). injection E as <- _. exact (set_rewrites d _ QTYPE_AAAA i s K (or_intror eq_refl) Es).
Qed.

Lemma zero_iff : forall i, is_zero i = true <-> all_zero i.
Proof. intros i. unfold is_zero, all_zero. rewrite forallb_forall. split; intros H b I; specialize (H b I); lia. Qed.
Lemma address_all : forall t0 cls frm l d e i d' x, 0 <= fst t0 -> history (mdnsd_new t0 cls frm) l d -> legal d e (OSetAddress i) -> step d e (OSetAddress i) = Ok (d', x) ->
  (i = address_set l -> d' = d) /\ (i <> address_set l -> (all_zero i -> rewritten d d' QTYPE_A withdrawn_rr) /\ (~ all_zero i -> rewritten d d' QTYPE_A (with_ip i))).
Proof.
  intros t0 cls frm l d e i d' x N Hh L E. pose proof (history_reach _ _ _ (reach_new t0 cls frm N) Hh) as K. destruct (set_rewrites_addr d e i d' x K L E) as [A B]. rewrite <- (proj1 (history_addr t0 cls frm l d N Hh)).
  split; [exact A|]. intros D. specialize (B D). rewrite <- zero_iff. destruct (is_zero i); (split; [intros Q|intros Q]; [|]; try exact B; congruence).
Qed.
Lemma address6_all : forall t0 cls frm l d e i d' x, 0 <= fst t0 -> history (mdnsd_new t0 cls frm) l d -> legal d e (OSetAddress6 i) -> step d e (OSetAddress6 i) = Ok (d', x) ->
  (i = address6_set l -> d' = d) /\ (i <> address6_set l -> (all_zero i -> rewritten d d' QTYPE_AAAA withdrawn_rr) /\ (~ all_zero i -> rewritten d d' QTYPE_AAAA (with_ip6 i))).
Proof.
  intros t0 cls frm l d e i d' x N Hh L E. pose proof (history_reach _ _ _ (reach_new t0 cls frm N) Hh) as K. destruct (set_rewrites_addr6 d e i d' x K L E) as [A B]. rewrite <- (proj2 (history_addr t0 cls frm l d N Hh)).
  split; [exact A|]. intros D. specialize (B D). rewrite <- zero_iff. destruct (is_zero i); (split; [intros Q|intros Q]; [|]; try exact B; congruence).
Qed.
