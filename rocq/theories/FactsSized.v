(* Addresses of records have the sizes of struct in_addr and struct in6_addr, since
   those of the calls have. *)
From Verif Require Import Base Lemmas Hash HashProofs Wire Rec Qry Out In Api RecInv RecSafe RecOps RecAddr OutSafe OutExtra QryInv QryOps CacheOps QryReg QryLoop InSafe InLoop InResp OutPub OutProbe OutAll OutSpec Shut DaemonInv SpecDaemon SpecLife SpecData SpecSize FactsCalls FactsItems FactsEvolve FactsIn FactsOut FactsFrame FactsFate FactsLife FactsUni FactsData FactsCache FactsFrom FactsSize ParseWf Scenario.

Definition sized_rr (a : answer) : Prop := zlen (a_ip a) = 4 /\ zlen (a_ip6 a) = 16.
Definition sized_recs (s : recs) : Prop := forall x X, hp s x = Some X -> sized_rr (rr X).

Lemma shared_sized : forall s h ty ttl s' r, mdnsd_shared s h ty ttl = (s', r) -> sized_recs s -> sized_recs s'.
Proof.
  intros s h ty ttl s' r E Sz x X EX. unfold mdnsd_shared in E. injection E as <- <-. cbn [hp] in EX. unfold hset in EX. destruct (Nat.eqb x _); [|exact (Sz x X EX)]. injection EX as <-. split; reflexivity.
Qed.
Lemma set_sized : forall s t r f s', mdnsd_set s t r f = Ok s' -> (forall a, sized_rr a -> sized_rr (f a)) -> sized_recs s -> sized_recs s'.
Proof. intros s t r f s' E F Sz x Y EY. destruct (set_rrs _ _ _ _ _ E x Y EY) as (X & EX & ->). specialize (Sz x X EX). destruct (Nat.eqb x r); auto. Qed.

Definition same_ips (X Y : mrec) : Prop := a_ip (rr Y) = a_ip (rr X) /\ a_ip6 (rr Y) = a_ip6 (rr X).
Lemma done_sized : forall s t r s', mdnsd_done s t r = Ok s' -> sized_recs s -> sized_recs s'.
Proof.
  intros s t r s' E Sz x Y EY.
  destruct (mdnsd_done_evo same_ips (fun X => conj eq_refl eq_refl) (fun X Y Z A B => conj (eq_trans (proj1 B) (proj1 A)) (eq_trans (proj2 B) (proj2 A))) (fun X p => conj eq_refl eq_refl) (fun X => conj eq_refl eq_refl) s t r s' E) as [H _].
  destruct (H x Y EY) as (X & EX & A & B). specialize (Sz x X EX). unfold sized_rr in *. rewrite A, B. exact Sz.
Qed.

Definition sized_for (ty : Z) (i : list Z) : Prop := if ty =? QTYPE_A then zlen i = 4 else zlen i = 16.
Lemma add_addrs_sized : forall l s t h ty ttl s', add_addrs s t h ty ttl l = Ok s' -> Forall (sized_for ty) l -> sized_recs s -> sized_recs s'.
Proof.
  induction l as [|i l IH]; intros s t h ty ttl s' E F Sz; cbn [add_addrs] in E; [injection E as <-; exact Sz|]. apply bind_ok in E as (b & _ & E). apply bind_ok in E as (s1 & E1 & E). inversion F as [|? ? F1 F2]; subst.
  apply (IH _ _ _ _ _ _ E F2). destruct b; [injection E1 as <-; exact Sz|]. destruct (mdnsd_shared s h ty ttl) as [s2 r] eqn:E2. pose proof (shared_sized _ _ _ _ _ _ E2 Sz) as S2.
  unfold sized_for in F1. destruct (ty =? QTYPE_A); (eapply set_sized; [exact E1| |exact S2]); intros a [A B]; split; assumption.
Qed.
Lemma drop_addrs_sized : forall l s t h ty a s', drop_addrs s t l h ty a = Ok s' -> sized_recs s -> sized_recs s'.
Proof.
  induction l as [|x l IH]; intros s t h ty a s' E Sz; cbn [drop_addrs] in E; [injection E as <-; exact Sz|]. apply bind_ok in E as (X & _ & E). apply bind_ok in E as (s1 & E1 & E).
  apply (IH _ _ _ _ _ _ E). destruct (_ && _); [eapply done_sized; eassumption|injection E1 as <-; exact Sz].
Qed.
Lemma update_sized : forall s t h ty a s', update_addresses s t h ty a = Ok s' -> Forall (sized_for ty) a -> sized_recs s -> sized_recs s'.
Proof.
  intros s t h ty a s' E F Sz. unfold update_addresses in E. apply bind_ok in E as (f & _ & E). apply bind_ok in E as (ttl & _ & E). apply bind_ok in E as (s1 & E1 & E).
  eapply drop_addrs_sized; [exact E|]. eapply add_addrs_sized; eassumption.
Qed.
Lemma set_hosts_sized : forall l s t v4 v6 s', set_hosts s t l v4 v6 = Ok s' -> Forall (sized_for QTYPE_A) v4 -> Forall (sized_for QTYPE_AAAA) v6 -> sized_recs s -> sized_recs s'.
Proof.
  induction l as [|n l IH]; intros s t v4 v6 s' E F4 F6 Sz; cbn [set_hosts] in E; [injection E as <-; exact Sz|]. apply bind_ok in E as (s1 & E1 & E). apply bind_ok in E as (s2 & E2 & E).
  apply (IH _ _ _ _ _ E F4 F6). eapply update_sized; [exact E2|exact F6|]. eapply update_sized; eassumption.
Qed.
Lemma set_ifaddrs_sized : forall s t ifs n s', set_interface_addresses s t ifs n = Ok s' -> (forall l i, ifs = Some l -> In i l -> (if_family i = AF_INET -> zlen (if_ip i) = 4) /\ (if_family i = AF_INET6 -> zlen (if_ip i) = 16)) -> sized_recs s -> sized_recs s'.
Proof.
  intros s t ifs n s' E F Sz. unfold set_interface_addresses in E. destruct ifs as [l|]; [|injection E as <-; exact Sz]. cbv zeta in E. apply bind_ok in E as (hs & _ & E).
  apply (set_hosts_sized _ _ _ _ _ _ E); [| |exact Sz]; apply Forall_map; apply Forall_forall; intros i I; apply filter_In in I as [I Ff]; apply filter_In in I as [I _]; apply Z.eqb_eq in Ff; destruct (F l i eq_refl I) as [A B].
  - exact (A Ff).
  - exact (B Ff).
Qed.

(* The records of a call that makes none *)
Definition maker (o : op) : Prop := match o with OShared _ _ _ | OUnique _ _ _ _ | OSetAddrs _ _ | OSetAddrs6 _ _ | OSetIfaddrs _ => True | _ => False end.
Lemma step_no_new : forall d e o d' x r Y, reach d -> legal d e o -> step d e o = Ok (d', x) -> ~ maker o -> record d' r Y -> exists X, record d r X.
Proof.
  intros d e o d' x r Y K L E Nm EY. destruct (reach_dinv d K) as (qs & H & C).
  assert (Rd' : reach d') by (eapply reach_step; eassumption). destruct (reach_dinv d' Rd') as (qs' & H' & _).
  assert (Lt : (r < fresh (R d'))%nat) by (apply (qk_fresh _ _ (ri_q _ _ H')); unfold record in EY; congruence).
  assert (W : (r < fresh (R d))%nat -> exists X, record d r X) by (intros W; destruct (step_identity d e o d' x r Y K L E W EY) as (X & EX & _); eauto).
  assert (Q : hp (R d') = hp (R d) -> exists X, record d r X) by (intros Q; exists Y; unfold record in *; congruence).
  destruct o; cbn [maker] in Nm; try (destruct (Nm I)); cbn [step] in E.
  - apply on_recs_ok in E as (s & E1 & -> & ->). apply W. destruct (set_rrs _ _ _ _ _ E1 r Y EY) as (X & EX & _). apply (qk_fresh _ _ (ri_q _ _ H)); congruence.
  - apply on_recs_ok in E as (s & E1 & -> & ->). destruct (set_rrs _ _ _ _ _ E1 r Y EY) as (X & EX & _). exists X. exact EX.
  - apply on_recs_ok in E as (s & E1 & -> & ->). destruct (set_rrs _ _ _ _ _ E1 r Y EY) as (X & EX & _). exists X. exact EX.
  - apply on_recs_ok in E as (s & E1 & -> & ->). destruct (set_rrs _ _ _ _ _ E1 r Y EY) as (X & EX & _). exists X. exact EX.
  - apply on_recs_ok in E as (s & E1 & -> & ->). destruct (set_rrs _ _ _ _ _ E1 r Y EY) as (X & EX & _). exists X. exact EX.
  - apply on_recs_ok in E as (s & E1 & -> & ->). destruct (proj1 (mdnsd_done_evo same_kind kind_refl kind_trans kind_link kind_ttl _ _ _ _ E1) r Y EY) as (X & EX & _). exists X. exact EX.
  - destruct (bytes_eqb _ _); [injection E as <- <-; apply Q; reflexivity|]. apply bind_ok in E as (s & Es & E). injection E as <- <-. cbn [with_addr with_R R] in EY.
    destruct (is_zero i) eqn:Z; [destruct (set_all_zero _ _ _ _ _ _ Z Es r Y EY) as (X & EX & _)|destruct (set_all_rrs _ _ _ _ _ _ (or_introl eq_refl) Z Es r Y EY) as (X & EX & _)]; exists X; exact EX.
  - destruct (bytes_eqb _ _); [injection E as <- <-; apply Q; reflexivity|]. apply bind_ok in E as (s & Es & E). injection E as <- <-. cbn [with_addr with_R R] in EY.
    destruct (is_zero i) eqn:Z; [destruct (set_all_zero _ _ _ _ _ _ Z Es r Y EY) as (X & EX & _)|destruct (set_all_rrs _ _ _ _ _ _ (or_intror eq_refl) Z Es r Y EY) as (X & EX & _)]; exists X; exact EX.
  - injection E as <- <-. apply Q. reflexivity.
  - injection E as <- <-. apply Q. reflexivity.
  - apply bind_ok in E as (s & E1 & E). injection E as <- <-. unfold shutdown_recs in E1. cbn [with_shutdown with_R R] in *.
    assert (Sh : forall l s s', shutdown_all s l = Ok s' -> forall r Y, hp s' r = Some Y -> exists X, hp s r = Some X).
    { clear. induction l as [|y l IH]; intros s s' E r Y EY; cbn [shutdown_all] in E; [injection E as <-; eauto|]. apply bind_ok in E as (X & EX & E). apply hget_ok in EX. destruct (IH _ _ E r Y EY) as (X1 & EX1). cbn [set_head set_hp hp] in EX1. unfold hset in EX1. destruct (Nat.eqb_spec r y) as [->|D]; eauto. }
    destruct (Sh _ _ _ E1 r Y EY) as (X & EX). exists X. exact EX.
  - apply on_recs_ok in E as (s & E1 & -> & ->). destruct (proj1 (records_clear_evo same_kind kind_refl kind_trans kind_link _ _ E1) r Y EY) as (X & EX & _). exists X. exact EX.
  - apply bind_ok in E as (q & E1 & E). injection E as <- <-. apply Q. reflexivity.
  - apply W. apply bind_ok in E as ([d1 n] & E1 & E). injection E as <- <-. destruct L as [N Wf].
    match type of E1 with mdnsd_in _ _ ?m ?from = _ => destruct (mdnsd_in_spec d e m from qs H C N Wf) as (d2 & n2 & qs2 & E2 & A & _) end.
    rewrite E2 in E1. injection E1 as <- <-. destruct C as (C1 & _). destruct A as [?|i tm|i0 tm0 d' qs'' ? ? ? ? E|i0 tm0 d' qs'' ? ? ? ? E]; [exact Lt|exact Lt| |].
    + match type of E with questions ?d1 ?ee ?from _ ?id ?qd ?an = _ => destruct (questions_sound qd d1 ee from false id an qs H ltac:(discriminate)) as (s' & i' & tm' & L' & b & qs3 & Cf & E' & _ & _ & F & _) end.
      rewrite E' in E. injection E as <-. change (fresh s' = fresh (R d)) in F. change (r < fresh s')%nat in Lt. lia.
    + match type of E with responses ?d1 ?ee ?from _ ?an = _ => destruct (responses_sound an d1 ee from false qs H C1 N Wf ltac:(discriminate)) as (s' & q' & i' & tm' & L' & qs3 & T & Cf & E' & _ & _ & _ & _ & _ & F & _) end.
      rewrite E' in E. injection E as <-. change (fresh s' = fresh (R d)) in F. change (r < fresh s')%nat in Lt. lia.
  - apply W. apply bind_ok in E as ([[d1 m] n] & E1 & E). injection E as <- <-. apply mdnsd_out_fresh in E1. lia.
  - apply W. apply bind_ok in E as ([d1 t] & E1 & E). injection E as <- <-. destruct (mdnsd_sleep_spec d e qs H) as (d2 & t2 & qs2 & E2 & A & _). rewrite E2 in E1. injection E1 as <- <-. destruct A; try exact Lt.
    cbn [with_R R with_now] in Lt. match goal with F : fresh _ = fresh _ |- _ => rewrite F in Lt end. exact Lt.
  - injection E as <- <-. apply Q. reflexivity.
Qed.

Lemma given_sized : forall r a ev, sized_call (ev_env ev) (ev_call ev) -> sized_rr a -> sized_rr (given r a ev).
Proof.
  intros r a ev C [A B]. unfold given. destruct (ev_call ev); cbn [sized_call] in C; try (split; assumption); try (destruct (Nat.eqb _ _); split; assumption); destruct (_ && _); split; assumption.
Qed.
Lemma step_sized : forall d e o d' x, reach d -> legal d e o -> step d e o = Ok (d', x) -> sized_call e o -> sized_addresses d -> sized_addresses d'.
Proof.
  intros d e o d' x K L E Sc Sz r Y EY.
  assert (N : ~ maker o -> sized_rr (rr Y)).
  { intros Nm. destruct (step_no_new d e o d' x r Y K L E Nm EY) as (X & EX). pose proof (step_given d e o d' x r X Y K L E EX EY) as (_ & _ & _ & A & B & _).
    pose proof (given_sized r (rr X) (mkevent d e o x d') Sc (Sz r X EX)) as G. unfold sized_rr in *. rewrite A, B. exact G. }
  destruct o; try (apply N; exact (fun f => f)); cbn [step] in E.
  - apply on_new_ok in E as (s & r0 & E1 & -> & ->). match type of E1 with Ok ?p = Ok ?q => assert (E2 : p = q) by congruence end. exact (shared_sized _ _ _ _ _ _ E2 Sz r Y EY).
  - apply on_new_ok in E as (s & r0 & E1 & -> & ->). unfold mdnsd_unique in E1. destruct (mdnsd_shared (R d) host type ttl) as [s1 r1] eqn:E0. pose proof (shared_sized _ _ _ _ _ _ E0 Sz) as S1.
    apply bind_ok in E1 as (X0 & EX0 & E1). cbv zeta in E1. apply bind_ok in E1 as (s2 & E2 & E1). apply bind_ok in E1 as (s3 & E3 & E1). injection E1 as <- <-. unfold record in EY. cbn [with_R R set_tprobe hp] in EY.
    destruct (r_push_evo same_rrs (fun X => eq_refl) (fun X p => eq_refl) _ _ _ _ E3) as [A3 _].
    destruct (r_remove_lists_evo same_rrs (fun X => eq_refl) (fun X Y Z (A : rr Y = rr X) (B : rr Z = rr Y) => eq_trans B A) (fun X p => eq_refl) _ _ _ _ E2) as [A2 _].
    destruct (A3 _ _ EY) as (X3 & EX3 & R3). destruct (A2 _ _ EX3) as (X2 & EX2 & R2). unfold same_rrs in *. rewrite R3, R2. cbn [set_hp hp] in EX2. apply hget_ok in EX0. unfold hset in EX2. destruct (Nat.eqb r r1); [injection EX2 as <-; exact (S1 _ _ EX0)|exact (S1 _ _ EX2)].
  - apply on_recs_ok in E as (s & E1 & -> & ->). refine (update_sized _ _ _ _ _ _ E1 _ Sz r Y EY). exact Sc.
  - apply on_recs_ok in E as (s & E1 & -> & ->). refine (update_sized _ _ _ _ _ _ E1 _ Sz r Y EY). exact Sc.
  - apply on_recs_ok in E as (s & E1 & -> & ->). exact (set_ifaddrs_sized _ _ _ _ _ E1 Sc Sz r Y EY).
Qed.

Lemma history_sized : forall t cls frm l d, 0 <= fst t -> history (mdnsd_new t cls frm) l d -> sized_calls l -> sized_addresses d.
Proof.
  intros t cls frm l d N Hh. induction Hh as [|l d e o x d' Hh IH L E]; intros Sc; [intros r X EX; discriminate|].
  apply Forall_app in Sc as [Sc Sl]. inversion Sl; subst. eapply step_sized; [exact (history_reach _ _ _ (reach_new t cls frm N) Hh)|exact L|exact E|assumption|exact (IH Sc)].
Qed.
Lemma cache_sized : forall t cls frm l d, 0 <= fst t -> history (mdnsd_new t cls frm) l d -> sized_calls l -> pure sized_rr (Q d).
Proof.
  intros t cls frm l d N Hh. induction Hh as [|l d e o x d' Hh IH L E]; intros Sc; [split; [intros i c I; rewrite cache_new in I; destruct I|intros p []]|].
  apply Forall_app in Sc as [Sc Sl]. inversion Sl as [|? ? S1 _]; subst. apply (pure_step sized_rr (fun a t H => H) d e o d' x (history_reach _ _ _ (reach_new t cls frm N) Hh) L E (IH Sc)).
  intros m from r tt a -> _ _ _ Ir _ Ea. cbn [sized_call ev_env ev_call] in S1. destruct S1 as [Sf Sr]. pose proof (proj1 (Forall_forall _ _) (proj2 L) r Ir) as W. destruct W as (_ & _ & _ & _ & WA & W6).
  unfold cache_answer in Ea. cbv zeta in Ea. destruct (rr_type r =? QTYPE_A) eqn:T1. { injection Ea as <-. apply Z.eqb_eq in T1. destruct (WA T1) as (i & Ei). split; [cbn [put_ip a_ip]; unfold known_ip; rewrite Ei; exact (proj1 (Sr r i Ir) Ei)|reflexivity]. }
  destruct (rr_type r =? QTYPE_AAAA) eqn:T2. { injection Ea as <-. apply Z.eqb_eq in T2. destruct (W6 T2) as (i & Ei). split; [reflexivity|cbn [put_ip6 a_ip6]; unfold known_ip6; rewrite Ei; exact (proj2 (Sr r i Ir) Ei)]. }
  destruct (is_name_type (rr_type r)); [destruct (known_name r); [|discriminate]; injection Ea as <-; destruct (family from =? AF_INET6); split; [reflexivity|exact Sf|exact Sf|reflexivity]|].
  destruct (rr_type r =? QTYPE_SRV); [|injection Ea as <-; split; reflexivity]. destruct (known_name r); [|discriminate]. destruct (known_srv r) as [[p w] q]. injection Ea as <-. split; reflexivity.
Qed.

(* ------------------------------------------------------------------ *)
(* How large messages get *)

Lemma known_within : forall frm cls t name type l m B, (forall c, In c l -> sized_rr (c_rr c)) -> mlen m <= B -> frm + 261 <= B -> mlen (known_answers frm cls t name type l m) <= B.
Proof.
  intros frm cls t name type. induction l as [|c l IH]; intros m B Sz L F; cbn [known_answers]; [exact L|]. assert (Sz' : forall c, In c l -> sized_rr (c_rr c)) by (intros; apply Sz; right; assumption).
  destruct (c_match name type c); [|apply IH; assumption]. destruct ((t + 8 <? a_ttl (c_rr c)) && (mlen m + rr_len (c_rr c) <? frm)) eqn:D; [|exact L]. apply andb_prop in D as [_ D]. apply IH; [exact Sz'| |exact F].
  pose proof (mlen_app m (MRr SAn name type cls (a_ttl (c_rr c) - t) :: a_copy (c_rr c))). pose proof (record_size SAn name type cls (a_ttl (c_rr c) - t) (c_rr c) (Sz c (or_introl eq_refl))). lia.
Qed.
Lemma query_loop_within : forall fuel s cb t frm cls q m best ret s' m' b' r' B, pure sized_rr s -> query_loop fuel s cb t frm cls q m best ret = Ok (s', m', b', r') -> mlen m <= B -> frm + 261 <= B -> mlen m' <= B.
Proof.
  induction fuel as [|fuel IH]; intros s cb t frm cls q m best ret s' m' b' r' B H K L F; cbn [query_loop] in K; [discriminate|].
  destruct q as [i|]; [|injection K as _ <- _ _; exact L]. apply bind_ok in K as (x & _ & K). destruct ((q_next x =? 0) || (t <? q_next x)).
  { apply bind_ok in K as (n & _ & K). exact (IH _ _ _ _ _ _ _ _ _ _ _ _ _ _ H K L F). }
  destruct (q_tries x =? 3).
  - apply bind_ok in K as (s1 & K1 & K). apply bind_ok in K as (s2 & K2 & K). apply bind_ok in K as (n & _ & K). refine (IH _ _ _ _ _ _ _ _ _ _ _ _ _ _ (pure_reset sized_rr _ _ _ (pure_expire_loop sized_rr (fun a t H => H) _ _ _ _ _ _ H K1) K2) K L F).
  - cbv zeta in K. apply bind_ok in K as (n & _ & K). refine (IH _ _ _ _ _ _ _ _ _ _ _ _ _ _ _ K _ F); [exact H|]. apply known_within; [|exact L|exact F]. intros c I. exact (proj1 H _ c I).
Qed.
Lemma query_ask_within : forall s t cls l m best m' b', query_ask s t cls l m best = Ok (m', b') -> mlen m' <= mlen m + 260 * zlen l.
Proof.
  induction l as [|q l IH]; intros m best m' b' K; cbn [query_ask] in K; [injection K as <- _; rewrite zlen_nil; lia|]. rewrite zlen_cons. apply bind_ok in K as (x & _ & K). destruct (_ && _ && _).
  - apply IH in K. pose proof (mlen_app m [MQd (q_nm x) (q_ty x) cls]) as A. unfold mcalls_size in A. cbn [map fold_right mcall_size] in A. lia.
  - destruct (_ && _); apply IH in K; lia.
Qed.
Lemma out_query_within : forall s cb t frm cls s' m' ret, pure sized_rr s -> out_query s cb t frm cls [] = Ok (s', m', ret) -> mlen m' <= Z.max (frm + 261) (12 + 260 * zlen (qlist s)).
Proof.
  intros s cb t frm cls s' m' ret H K. unfold out_query in K. pose proof (zlen_nonneg _ (qlist s)). destruct (_ && _); [|injection K as _ <- _; rewrite mlen_nil; lia].
  apply bind_ok in K as ([m1 b1] & K1 & K). apply bind_ok in K as ([[[s2 m2] b2] r2] & K2 & K). injection K as _ <- _. apply query_ask_within in K1. rewrite mlen_nil in K1. eapply query_loop_within; [exact H|exact K2| |]; lia.
Qed.

(* A message that is no response: the probes, or what the queries come to *)
Lemma other_calls : forall d e d' m ret, reach d -> legal d e OOut -> step d e OOut = Ok (d', RMsg m ret) -> o_qr m = false ->
  exists qs, rinv (R d) qs /\
  (o_calls m = asks (class d) (hp (R d)) (probe_due (R d) qs (e_now e)) ++ flat_map (at_rec (hp (R d)) (fun X => if probed X then [] else tell_calls (class d) X)) (probe_due (R d) qs (e_now e)) \/
   exists q1 n, out_query (Q d) (e_cb e) (fst (e_now e)) (frame d) (class d) [] = Ok (q1, o_calls m, n)).
Proof.
  intros d e d' m ret K [_ Cb] E Qr. destruct (reach_dinv d K) as (qs & H & HQ & Hn & Hc & _). exists qs. split; [exact H|]. cbn [step] in E. apply bind_ok in E as ([[d1 m1] n1] & E0 & E). injection E as <- <- <-.
  unfold mdnsd_out in E0. cbv zeta in E0. set (t := e_now e) in *.
  change (R (with_now d t)) with (R d) in E0. change (frame (with_now d t)) with (frame d) in E0. change (class (with_now d t)) with (class d) in E0.
  change (disco (with_now d t)) with (disco d) in E0. change (is_shutdown (with_now d t)) with (is_shutdown d) in E0. change (d_family (with_now d t)) with (d_family d) in E0.
  destruct (uans (R d)) as [|u us] eqn:Eu; [|apply bind_ok in E0 as ([s1 c1] & _ & E0); injection E0 as _ <- _; discriminate].
  destruct (out_answers (R d) qs t (frame d) (class d) (disco d) H Eu) as (N & restN & P & restP & A & restA & s2 & s3 & added & K2). cbv zeta in K2.
  destruct K2 as (En & Ep & Ea & Dp & Da & E2 & H2 & A2 & E3 & H3 & A3 & F2 & F3 & U2 & U3 & T1 & T2 & C2 & C3 & T3 & (seen' & E4) & G4 & B1 & B2 & B3).
  match goal with J : context [bind (r_out ?a ?b ?c ?dd ?ee ?f ?g ?hh ?i ?j) ?k] |- _ => set (first := r_out a b c dd ee f g hh i j) in * end.
  destruct first as [[[[s1 m1'] seen1] ret1]| | |]; cbn [bind] in E2; try discriminate. cbn [bind] in E0. rewrite E2 in E0. cbn [bind] in E0.
  destruct (is_shutdown d) eqn:Sd; [injection E0 as _ <- _; discriminate|]. rewrite E3 in E0. cbn [bind] in E0. rewrite E4 in E0. cbn [bind] in E0.
  set (all := sent_of (disco d) (hp (R d)) N ++ P ++ sent_of (disco d) (hp (R d)) A) in *.
  destruct (zlen all =? 0) eqn:Z; cbn [negb] in E0; [|injection E0 as _ <- _; discriminate].
  apply zlen_zero in Z. unfold all in Z. apply app_eq_nil in Z as [Z1 Z]. apply app_eq_nil in Z as [Z2 Z3]. subst P. unfold all in *. rewrite Z1, Z3 in *. cbn [app] in *.
  cbn [calls_of flat_map app] in *.
  assert (Ad : added = []).
  { destruct added as [|x r]; [reflexivity|]. exfalso. destruct G4 as (_ & _ & G). destruct (G [] x r eq_refl) as (X & _ & (a & Y & [] & _) & _). }
  subst added. cbn [extras flat_map] in E0. apply after_nothing in A3.
  destruct (out_probe_spec s3 _ t (class d) [] H3) as (s4 & E5 & H5 & A5 & F5 & P5 & U5 & C5 & T5 & T6 & T7). rewrite T2 in *.
  match type of E5 with context [asks _ _ (if _ then ?q else _)] => assert (Qp : q = qs Probing) by (rewrite !on_other by discriminate; reflexivity); rewrite Qp in * end.
  fold (probe_due (R d) qs t) in *. set (l := probe_due (R d) qs t) in *. cbn [app] in E5.
  assert (X3 : forall x, option_map nolink (hp s3 x) = option_map nolink (hp (R d) x)) by (intros x; symmetry; apply A3).
  assert (Ia : asked (hp s3) l = asked (hp (R d)) l) by (apply holds_ext; [intros X Y J; apply (f_equal negb); apply probed_nolink; exact J|intros; apply X3]).
  assert (Is : asks (class d) (hp s3) l = asks (class d) (hp (R d)) l) by (apply flat_ext; [apply ask_calls_nolink|intros; apply X3]).
  assert (It : flat_map (at_rec (hp s3) (fun X => if probed X then [] else tell_calls (class d) X)) l = flat_map (at_rec (hp (R d)) (fun X => if probed X then [] else tell_calls (class d) X)) l).
  { apply flat_ext; [|intros; apply X3]. intros X Y J. rewrite (probed_nolink _ _ J), (tell_calls_nolink _ _ _ J). reflexivity. }
  rewrite Ia, Is, It in E5. rewrite E5 in E0. cbn [bind] in E0.
  destruct (zlen (asked (hp (R d)) l) =? 0) eqn:Z; cbn [negb] in E0; [|injection E0 as _ <- _; left; reflexivity]. right.
  apply zlen_zero in Z. rewrite (asked_nil _ _ _ Z) in E0.
  change (Q (with_R (with_now d t) s4)) with (Q d) in E0. apply bind_ok in E0 as ([[q1 c1] r1] & E6 & E0).
  exists q1, r1. destruct (_ <? _); [apply bind_ok in E0 as (q7 & _ & E0)|]; injection E0 as _ <- _; exact E6.
Qed.

Lemma copy_room : forall a, sized_rr a -> mcalls_size (a_copy a) <= 36 + length_of (a_rdata a) + length_of (a_rdname a).
Proof.
  intros a Sa. pose proof (a_copy_size a Sa) as B. unfold rr_len in B. unfold length_of.
  assert (0 <= zlen match a_rdata a with Some x => x | None => [] end) by apply zlen_nonneg. assert (0 <= zlen match a_rdname a with Some x => x | None => [] end) by apply zlen_nonneg.
  destruct (is_zero (a_ip a)), (is_zero (a_ip6 a)), (a_type a =? QTYPE_PTR), (a_rdata a), (a_rdname a); lia.
Qed.
Lemma room_pos : forall d r, 0 <= room_of d r.
Proof.
  intros d r. unfold room_of. destruct (hp (R d) r) as [X|]; [|lia]. unfold length_of. pose proof (zlen_nonneg _ match a_rdata (rr X) with Some x => x | None => [] end). pose proof (zlen_nonneg _ match a_rdname (rr X) with Some x => x | None => [] end). destruct (a_rdata (rr X)), (a_rdname (rr X)); lia.
Qed.
Lemma room_in : forall d P r, In r P -> room_of d r <= room_for d P.
Proof.
  intros d P r I. assert (N : forall P, 0 <= room_for d P) by (clear; induction P as [|x P IH]; unfold room_for in *; cbn [map fold_right]; [lia|pose proof (room_pos d x); lia]).
  induction P as [|x P IH]; [destruct I|]. unfold room_for in *. cbn [map fold_right]. pose proof (room_pos d x). specialize (N P). destruct I as [->|I]; [lia|apply IH in I; lia].
Qed.
Lemma room_incl : forall d l P, NoDup l -> (forall r, In r l -> In r P) -> room_for d l <= room_for d P.
Proof.
  intros d. induction l as [|x l IH]; intros P D I.
  - unfold room_for at 1. cbn [map fold_right]. clear. induction P as [|y P IH]; unfold room_for in *; cbn [map fold_right]; [lia|pose proof (room_pos d y); lia].
  - inversion D as [|? ? D1 D2]; subst. destruct (in_split x P (I x (or_introl eq_refl))) as (P1 & P2 & ->).
    assert (B : room_for d l <= room_for d (P1 ++ P2)).
    { apply IH; [exact D2|]. intros r Ir. assert (Ir' := I r (or_intror Ir)). apply in_app_or in Ir'. apply in_or_app. destruct Ir' as [J|[J|J]]; auto. subst. contradiction. }
    unfold room_for in *. rewrite map_app in *. cbn [map fold_right]. assert (A : forall a b z, fold_right Z.add 0 (a ++ z :: b) = z + fold_right Z.add 0 (a ++ b)) by (clear; induction a as [|y a IH]; intros b z; cbn [app fold_right]; [lia|rewrite IH; lia]).
    rewrite A. lia.
Qed.

Lemma exists_last_or_nil : forall (l : list nat), l = [] \/ exists a x, l = a ++ [x].
Proof. intros [|y l]; [left; reflexivity|]. right. destruct (exists_last (l := y :: l) ltac:(discriminate)) as (a & x & E). exists a, x. exact E. Qed.
Lemma state_room : forall d e d' m n P, reach d -> sized_addresses d ->
  (forall q1 c r, out_query (Q d) (e_cb e) (fst (e_now e)) (frame d) (class d) [] = Ok (q1, c, r) -> mlen c <= Z.max (frame d + 261) (12 + 260 * zlen (qlist (Q d)))) ->
  legal d e OOut -> step d e OOut = Ok (d', RMsg m n) -> covers d P ->
  packet_len (encode (o_calls m)) <= Z.max (frame d + 261) (12 + 260 * query_count d + room_for d P).
Proof.
  intros d e d' m n P K Sz Hq L E Cv.
  assert (Nq : 0 <= query_count d) by apply zlen_nonneg. assert (Np : 0 <= room_for d P) by (clear; induction P as [|x P IH]; unfold room_for in *; cbn [map fold_right]; [lia|pose proof (room_pos d x); lia]).
  change (packet_len (encode (o_calls m))) with (mlen (o_calls m)).
  destruct (uans (R d)) as [|u us] eqn:Eu.
  - destruct (o_qr m) eqn:Qr; [pose proof (response_size d e d' m n Eu Sz E Qr) as B; unfold mlen; lia|].
    destruct (other_calls d e d' m n K L E Qr) as (qs & H & [Ec|(q1 & r1 & Ec)]).
    + rewrite Ec. set (lp := probe_due (R d) qs (e_now e)).
      assert (B : forall l, mcalls_size (asks (class d) (hp (R d)) l) + mcalls_size (flat_map (at_rec (hp (R d)) (fun X => if probed X then [] else tell_calls (class d) X)) l) <= room_for d l).
      { clear - Sz. induction l as [|x l IH]; [unfold room_for, mcalls_size; cbn; lia|]. unfold asks in *. cbn [flat_map]. rewrite !mcalls_size_app. unfold room_for in *. cbn [map fold_right].
        assert (B : mcalls_size (at_rec (hp (R d)) (ask_calls (class d)) x) + mcalls_size (at_rec (hp (R d)) (fun X => if probed X then [] else tell_calls (class d) X) x) <= room_of d x); [|lia].
        pose proof (room_pos d x) as Rp. unfold at_rec, room_of in *. destruct (hp (R d) x) as [X|] eqn:EX; [|unfold mcalls_size; cbn [map fold_right]; lia]. unfold ask_calls, tell_calls. destruct (probed X); [unfold mcalls_size; cbn [map fold_right]; lia|].
        pose proof (copy_room (rr X) (Sz x X EX)) as Cr. change (MRr SNs (a_name (rr X)) (a_type (rr X)) (class d) (a_ttl (rr X)) :: a_copy (rr X)) with ([MRr SNs (a_name (rr X)) (a_type (rr X)) (class d) (a_ttl (rr X))] ++ a_copy (rr X)). rewrite mcalls_size_app.
        unfold mcalls_size at 1 2. cbn [map fold_right mcall_size]. lia. }
      pose proof (mlen_upper (asks (class d) (hp (R d)) lp ++ flat_map (at_rec (hp (R d)) (fun X => if probed X then [] else tell_calls (class d) X)) lp)) as U. rewrite mcalls_size_app in U. specialize (B lp).
      assert (I : room_for d lp <= room_for d P); [|lia]. apply room_incl.
      * unfold lp, probe_due. destruct (_ <=? 0); [exact (qk_nodup _ _ (ri_q _ _ H) Probing)|constructor].
      * intros r Ir. apply Cv. left. apply probe_due_in in Ir. apply (waits_iff d qs Probing r H). exact Ir.
    + apply Hq in Ec. unfold query_count in *. lia.
  - destruct (out_cases d e d' m n K L E) as (qs & qs' & H & C & O & _). destruct O as [u0 us0 X added E0 EX G| | | |]; try congruence. rewrite Eu in E0. injection E0 as <- <-. cbn [o_calls].
    assert (B : mcalls_size (uni_calls (class d) X) <= room_of d (u_r u)).
    { unfold room_of. rewrite EX. pose proof (copy_room (rr X) (Sz (u_r u) X EX)) as Cr. unfold uni_calls.
      change (?a :: ?b :: ?c) with ([a] ++ [b] ++ c). rewrite !mcalls_size_app. unfold mcalls_size at 1 2. cbn [map fold_right mcall_size]. lia. }
    assert (I : room_of d (u_r u) <= room_for d P) by (apply room_in, Cv; right; exists u; rewrite Eu; split; [left; reflexivity|reflexivity]).
    pose proof (mlen_upper (uni_calls (class d) X)) as U. destruct G as (_ & _ & G).
    destruct (exists_last_or_nil added) as [->|(a & x & ->)]; [cbn [extras flat_map]; rewrite app_nil_r; lia|].
    destruct (G a x [] eq_refl) as (Y & EY & _ & _ & B3). rewrite extras_app, app_assoc. pose proof (mlen_app (uni_calls (class d) X ++ extras (class d) (hp (R d)) a) (extras (class d) (hp (R d)) [x])) as A.
    assert (B4 : mcalls_size (extras (class d) (hp (R d)) [x]) <= rr_len (rr Y) + 262); [|lia]. unfold extras, at_rec. cbn [flat_map]. rewrite EY, app_nil_r. apply record_size. exact (Sz x Y EY).
Qed.
Lemma message_room : forall t cls frm l d e d' m n P, 0 <= fst t -> history (mdnsd_new t cls frm) l d -> sized_calls l -> legal d e OOut -> step d e OOut = Ok (d', RMsg m n) -> covers d P ->
  packet_len (encode (o_calls m)) <= Z.max (frame d + 261) (12 + 260 * query_count d + room_for d P).
Proof.
  intros t cls frm l d e d' m n P N Hh Sc L E Cv. apply (state_room d e d' m n P (history_reach _ _ _ (reach_new t cls frm N) Hh) (history_sized _ _ _ _ _ N Hh Sc)); try assumption.
  intros q1 c r. apply out_query_within. exact (cache_sized _ _ _ _ _ N Hh Sc).
Qed.

(* ------------------------------------------------------------------ *)
(* What message_parse returns has addresses of these sizes. *)
Definition sized_resource (r : resource) : Prop := forall i, (rr_known r = KA i -> zlen i = 4) /\ (rr_known r = KAAAA i -> zlen i = 16).
Lemma rr_parse1_sized : forall b psz s slot p s' p' r, rr_parse1 b psz s slot p = Ok (s', p', r) -> sized_resource r.
Proof.
  intros b psz s slot p s' p' r H. unfold rr_parse1 in H.
  apply bind_ok in H as ([[s1 p1] name] & _ & H). apply bind_ok in H as (_ & _ & H). apply bind_ok in H as ([ty p2] & _ & H). apply bind_ok in H as ([cl p3] & _ & H). apply bind_ok in H as ([ttl p4] & _ & H). apply bind_ok in H as ([len p5] & _ & H).
  destruct (_ || _) in H; [discriminate|]. cbv zeta in H. apply bind_ok in H as ([[s2 len2] data] & _ & H).
  destruct (ty =? QTYPE_A).
  { destruct (_ <? _) in H; [discriminate|]. apply bind_ok in H as (_ & _ & H). apply bind_ok in H as (i & Ei & H). injection H as _ _ <-. intros j. cbn [rr_known]. split; [intros [= <-]|discriminate]. apply rdn_len in Ei; [exact Ei|lia]. }
  destruct (ty =? QTYPE_AAAA).
  { destruct (_ <? _) in H; [discriminate|]. apply bind_ok in H as (_ & _ & H). apply bind_ok in H as (i & Ei & H). injection H as _ _ <-. intros j. cbn [rr_known]. split; [discriminate|intros [= <-]]. apply rdn_len in Ei; [exact Ei|lia]. }
  destruct (_ || _ || _) in H. { apply bind_ok in H as ([[s3 p6] tg] & _ & H). injection H as _ _ <-. split; discriminate. }
  destruct (_ =? _) in H; [|injection H as _ _ <-; split; discriminate].
  apply bind_ok in H as ([pr p6] & _ & H). apply bind_ok in H as ([we p7] & _ & H). apply bind_ok in H as ([po p8] & _ & H). apply bind_ok in H as ([[s3 p9] tg] & _ & H). injection H as _ _ <-. split; discriminate.
Qed.
Lemma rr_parse_sized : forall n b psz s slot p s' p' rs, rr_parse b psz s n slot p = Ok (s', p', rs) -> Forall sized_resource rs.
Proof.
  induction n as [|n IH]; intros b psz s slot p s' p' rs H; cbn [rr_parse] in H; [injection H as <- <- <-; constructor|].
  apply bind_ok in H as ([[s1 p1] r] & H1 & H). apply bind_ok in H as ([[s2 p2] rs'] & H2 & H). injection H as <- <- <-. constructor; [eapply rr_parse1_sized; eauto|eapply IH; eauto].
Qed.
Lemma parse_sized : forall b psz m s p e from, message_parse b psz = Ok (m, s, p) -> zlen (ip from) = (if family from =? AF_INET6 then 16 else 4) -> sized_call e (OIn m from).
Proof.
  intros b psz m s p e from H Sf. cbn [sized_call]. split; [exact Sf|]. intros r i Ir. unfold message_parse in H.
  apply bind_ok in H as ([id' p0] & _ & H). apply bind_ok in H as (c0 & _ & H). apply bind_ok in H as (c1 & _ & H). cbv zeta in H.
  apply bind_ok in H as ([qd p1] & _ & H). destruct (_ <? _) in H; [discriminate|].
  apply bind_ok in H as ([an p2] & _ & H). destruct (_ <? _) in H; [discriminate|].
  apply bind_ok in H as ([ns p3] & _ & H). destruct (_ <? _) in H; [discriminate|].
  apply bind_ok in H as ([ar p4] & _ & H). destruct (_ <? _) in H; [discriminate|].
  destruct (my (mkpst 0 [] []) (SIZEOF_QUESTION * qd)) as [s1 qa]. apply bind_ok in H as ([[s2 p5] qs] & _ & H).
  destruct (my s2 (SIZEOF_RESOURCE * an)) as [s3 aa]. destruct (my s3 (SIZEOF_RESOURCE * ns)) as [s4 na]. destruct (my s4 (SIZEOF_RESOURCE * ar)) as [s5 ra].
  apply bind_ok in H as ([[s6 p6] l1] & H1 & H). apply bind_ok in H as ([[s7 p7] l2] & _ & H). apply bind_ok in H as ([[s8 p8] l3] & _ & H).
  injection H as <- _ _. cbn [m_an] in Ir. apply rr_parse_sized in H1. exact (proj1 (Forall_forall _ _) H1 r Ir i).
Qed.

(* The frame size stays. *)
Lemma step_frame : forall d e o d' x, reach d -> legal d e o -> step d e o = Ok (d', x) -> frame d' = frame d.
Proof.
  intros d e o d' x K L E. destruct o; cbn [step] in E;
    try (apply on_recs_ok in E as (s & _ & -> & _); reflexivity); try (apply on_new_ok in E as (s & r & _ & -> & _); reflexivity); try (injection E as <- _; reflexivity);
    try (apply bind_ok in E as (s & _ & E); injection E as <- _; reflexivity);
    try (destruct (bytes_eqb _ _); [injection E as <- _; reflexivity|apply bind_ok in E as (s & _ & E); injection E as <- _; reflexivity]).
  - destruct (reach_dinv d K) as (qs & H & C). destruct L as [N Wf]. apply bind_ok in E as ([d1 n] & E1 & E). injection E as <- <-. pose proof C as (C1 & _).
    match type of E1 with mdnsd_in _ _ ?m ?from = _ => destruct (mdnsd_in_spec d e m from qs H C N Wf) as (d2 & n2 & qs2 & E2 & A & _) end. rewrite E2 in E1. injection E1 as <- <-.
    destruct A as [?|i tm|i0 tm0 d' qs'' ? ? ? ? E|i0 tm0 d' qs'' ? ? ? ? E]; [reflexivity|reflexivity| |].
    + match type of E with questions ?d1 ?ee ?from _ ?id ?qd ?an = _ => destruct (questions_sound qd d1 ee from false id an qs H ltac:(discriminate)) as (s' & i' & tm' & L' & b & qs3 & Cf & E' & _) end. rewrite E' in E. injection E as <-. reflexivity.
    + match type of E with responses ?d1 ?ee ?from _ ?an = _ => destruct (responses_sound an d1 ee from false qs H C1 N Wf ltac:(discriminate)) as (s' & q' & i' & tm' & L' & qs3 & T & Cf & E' & _) end. rewrite E' in E. injection E as <-. reflexivity.
  - apply bind_ok in E as ([[d1 m] n] & E1 & E). injection E as <- <-. destruct (out_cases d e d1 m n K L) as (qs & qs' & _ & _ & O & _); [cbn [step]; rewrite E1; reflexivity|]. destruct O; reflexivity.
  - apply bind_ok in E as ([d1 t] & E1 & E). injection E as <- <-. destruct (reach_dinv d K) as (qs & H & C). destruct (mdnsd_sleep_spec d e qs H) as (d2 & t2 & qs2 & E2 & A & _). rewrite E2 in E1. injection E1 as <- <-. destruct A; reflexivity.
Qed.
Lemma history_frame : forall t cls frm l d, 0 <= fst t -> history (mdnsd_new t cls frm) l d -> frame d = frm.
Proof.
  intros t cls frm l d N Hh. induction Hh as [|l d e o x d' Hh IH L E]; [reflexivity|]. rewrite (step_frame d e o d' x (history_reach _ _ _ (reach_new t cls frm N) Hh) L E). exact IH.
Qed.

Lemma sized_response : forall t cls frm l d e d' m n, 0 <= fst t -> history (mdnsd_new t cls frm) l d -> sized_calls l -> uans (R d) = [] -> step d e OOut = Ok (d', RMsg m n) -> o_qr m = true ->
  packet_len (encode (o_calls m)) <= Z.max 12 (frm + 261).
Proof. intros t cls frm l d e d' m n N Hh Sc U E Qr. rewrite <- (history_frame _ _ _ _ _ N Hh). exact (response_size d e d' m n U (history_sized _ _ _ _ _ N Hh Sc) E Qr). Qed.
Lemma message_size : forall t cls frm l d e d' m n P, 0 <= fst t -> history (mdnsd_new t cls frm) l d -> sized_calls l -> legal d e OOut -> step d e OOut = Ok (d', RMsg m n) -> covers d P ->
  packet_len (encode (o_calls m)) <= Z.max (frm + 261) (12 + 260 * query_count d + room_for d P).
Proof. intros t cls frm l d e d' m n P N Hh Sc L E Cv. rewrite <- (history_frame _ _ _ _ _ N Hh). exact (message_room t cls frm l d e d' m n P N Hh Sc L E Cv). Qed.
Lemma message_fits : forall t cls frm l d e d' m n P, 0 <= fst t -> history (mdnsd_new t cls frm) l d -> sized_calls l -> legal d e OOut -> step d e OOut = Ok (d', RMsg m n) -> covers d P ->
  frm + 261 <= MAX_PACKET_LEN -> 12 + 260 * query_count d + room_for d P <= MAX_PACKET_LEN -> e_ovf (encode (o_calls m)) = false.
Proof.
  intros t cls frm l d e d' m n P N Hh Sc L E Cv F B. apply no_overflow. pose proof (message_size t cls frm l d e d' m n P N Hh Sc L E Cv) as K. unfold mlen. change MAX_PACKET_LEN with 65535 in *. lia.
Qed.

(* For the cases *)
Definition sized_opb (o : op) : bool :=
  match o with
  | OSetIp _ i | OSetAddress i => zlen i =? 4
  | OSetIp6 _ i | OSetAddress6 i => zlen i =? 16
  | OSetAddrs _ l => forallb (fun i => zlen i =? 4) l
  | OSetAddrs6 _ l => forallb (fun i => zlen i =? 16) l
  | OSetIfaddrs _ => false
  | OIn m from => (zlen (ip from) =? (if family from =? AF_INET6 then 16 else 4)) && forallb (fun r => match rr_known r with KA i => zlen i =? 4 | KAAAA i => zlen i =? 16 | _ => true end) (m_an m)
  | _ => true
  end.
Lemma sized_opb_ok : forall e o, sized_opb o = true -> sized_call e o.
Proof.
  intros e o B. destruct o; cbn [sized_opb sized_call] in *; try exact I; try (apply Z.eqb_eq; exact B); try discriminate.
  - apply Forall_forall. intros i Ii. rewrite forallb_forall in B. apply Z.eqb_eq. exact (B i Ii).
  - apply Forall_forall. intros i Ii. rewrite forallb_forall in B. apply Z.eqb_eq. exact (B i Ii).
  - apply andb_prop in B as [B1 B2]. split; [apply Z.eqb_eq; exact B1|]. rewrite forallb_forall in B2. intros r i Ir. specialize (B2 r Ir). split; intros Er; rewrite Er in B2; apply Z.eqb_eq; exact B2.
Qed.
Lemma recorded_sized : forall l d, forallb (fun p => sized_opb (snd p)) l = true -> sized_calls (recorded d l).
Proof.
  induction l as [|[t o] l IH]; intros d B; cbn [recorded]; [constructor|]. cbn [forallb snd] in B. apply andb_prop in B as [B1 B2]. destruct (legalb d t o); [|constructor]. destruct (step d (at_ t) o) as [[d' x]| | |]; try constructor; [|exact (IH d' B2)].
  apply sized_opb_ok. exact B1.
Qed.
Lemma covers_by : forall frm l p P, probing (R (story frm l)) = p -> linkedb (next_of (story frm l)) p P = true -> uans (R (story frm l)) = [] -> covers (story frm l) P.
Proof.
  intros frm l p P Ep B U r [W|(u & I & _)]; [|rewrite U in I; destruct I]. destruct (reach_dinv _ (story_reach frm l)) as (qs & H & _).
  assert (A : forall x, In x P <-> waits (story frm l) Probing x); [|apply A; exact W]. intros x. split.
  - intros I. apply (waits_by P); [cbn [head]; rewrite Ep; exact B|exact I].
  - intros (P' & K & I). apply linkedb_ok in B. unfold queue_is in K. cbn [head] in K. rewrite Ep in K. assert (P' = P); [|congruence]. clear - K B. revert P B. induction K as [|x p l0 En K IH]; intros P B; inversion B; subst; [reflexivity|]. f_equal. apply IH. congruence.
Qed.
