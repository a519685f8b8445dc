(* The time between probes and between announcements. *)
From Verif Require Import Base Lemmas Hash HashProofs Wire Rec Qry Out In Api RecInv RecSafe RecOps RecAddr OutSafe OutPub OutProbe OutExtra QryInv QryOps CacheOps QryLoop OutAll OutSpec Shut DaemonInv SpecDaemon SpecLife SpecSpace FactsCalls FactsEvolve FactsItems FactsOut FactsFrame FactsDrain FactsFate FactsLife.

(* ------------------------------------------------------------------ *)
(* Only mdnsd_unique and probing set the time of the next probe. *)
Ltac done_probe E := injection E as <-; reflexivity.
Lemma remove_list_tp : forall s q r s', r_remove_list s q r = Ok s' -> t_probe s' = t_probe s.
Proof. intros s q r s' E. unfold r_remove_list in E. destruct (ptr_eqb _ _); apply bind_ok in E as (X & _ & E); done_probe E. Qed.
Lemma remove_unless_tp : forall s k q r s', remove_unless s k q r = Ok s' -> t_probe s' = t_probe s.
Proof.
  intros s k q r s' E. unfold remove_unless in E. destruct (head s q); [|done_probe E]. destruct k as [k|]; [|eapply remove_list_tp; exact E]. destruct (queue_eqb q k); [done_probe E|eapply remove_list_tp; exact E].
Qed.
Lemma remove_lists_tp : forall s r k s', r_remove_lists s r k = Ok s' -> t_probe s' = t_probe s.
Proof.
  intros s r k s' E. unfold r_remove_lists in E. apply bind_ok in E as (s1 & E1 & E). apply bind_ok in E as (s2 & E2 & E). apply bind_ok in E as (s3 & E3 & E).
  apply remove_unless_tp in E1, E2, E3, E. congruence.
Qed.
Lemma push_tp : forall s q r s', r_push s q r = Ok s' -> t_probe s' = t_probe s.
Proof. intros s q r s' E. unfold r_push in E. apply bind_ok in E as (b & _ & E). destruct b; [done_probe E|]. apply bind_ok in E as (X & _ & E). done_probe E. Qed.
Lemma send_tp : forall s t r s', r_send s t r = Ok s' -> t_probe s' = t_probe s.
Proof.
  intros s t r s' E. unfold r_send in E. apply bind_ok in E as (X & _ & E). destruct (tries X <? 4); [done_probe E|]. destruct (negb _); cbv zeta in E; apply bind_ok in E as (s1 & E1 & E); apply remove_lists_tp in E1; apply push_tp in E; rewrite E, E1; reflexivity.
Qed.
Lemma rdone_tp : forall s r s', r_done s r = Ok s' -> t_probe s' = t_probe s.
Proof. intros s r s' E. unfold r_done in E. apply bind_ok in E as (X & _ & E). done_probe E. Qed.
Lemma publish_tp : forall s t r s', r_publish s t r = Ok s' -> t_probe s' = t_probe s.
Proof.
  intros s t r s' E. unfold r_publish in E. apply bind_ok in E as (X & _ & E). cbv zeta in E. destruct (probes _); [done_probe E|]. apply bind_ok in E as (s1 & E1 & E). apply remove_lists_tp in E1. apply push_tp in E. rewrite E, E1. reflexivity.
Qed.
Lemma set_tp : forall s t r f s', mdnsd_set s t r f = Ok s' -> t_probe s' = t_probe s.
Proof. intros s t r f s' E. unfold mdnsd_set, with_rr in E. apply bind_ok in E as (s1 & E1 & E). apply bind_ok in E1 as (X & _ & E1). injection E1 as <-. apply publish_tp in E. exact E. Qed.
Lemma done_tp : forall s t r s', mdnsd_done s t r = Ok s' -> t_probe s' = t_probe s.
Proof.
  intros s t r s' E. unfold mdnsd_done in E. apply bind_ok in E as (X & _ & E). destruct (probes X); [|apply send_tp in E; exact E]. apply bind_ok in E as (s1 & E1 & E). apply rdone_tp in E. rewrite E.
  destruct (ptr_eqb _ _); [done_probe E1|]. apply bind_ok in E1 as (h & _ & E1). done_probe E1.
Qed.
Lemma conflict_tp : forall s t r s', r_conflict s t r = Ok s' -> t_probe s' = t_probe s.
Proof. intros s t r s' E. unfold r_conflict in E. apply bind_ok in E as (X & _ & E). destruct (conflict X); [|discriminate]. apply done_tp in E. exact E. Qed.
Lemma add_tp : forall l s t h ty ttl s', add_addrs s t h ty ttl l = Ok s' -> t_probe s' = t_probe s.
Proof.
  induction l as [|i l IH]; intros s t h ty ttl s' E; cbn [add_addrs] in E; [done_probe E|]. apply bind_ok in E as (b & _ & E). apply bind_ok in E as (s1 & E1 & E). apply IH in E. rewrite E.
  destruct b; [done_probe E1|]. destruct (mdnsd_shared s h ty ttl) as [s2 r] eqn:E2. injection E2 as <- _. destruct (ty =? QTYPE_A); apply set_tp in E1; exact E1.
Qed.
Lemma drop_tp : forall l s t h ty a s', drop_addrs s t l h ty a = Ok s' -> t_probe s' = t_probe s.
Proof.
  induction l as [|x l IH]; intros s t h ty a s' E; cbn [drop_addrs] in E; [done_probe E|]. apply bind_ok in E as (X & _ & E). apply bind_ok in E as (s1 & E1 & E). apply IH in E. rewrite E.
  destruct (_ && _); [apply done_tp in E1; exact E1|done_probe E1].
Qed.
Lemma update_tp : forall s t h ty a s', update_addresses s t h ty a = Ok s' -> t_probe s' = t_probe s.
Proof.
  intros s t h ty a s' E. unfold update_addresses in E. apply bind_ok in E as (f & _ & E). apply bind_ok in E as (ttl & _ & E). apply bind_ok in E as (s1 & E1 & E). apply add_tp in E1. apply drop_tp in E. congruence.
Qed.
Lemma hosts_tp : forall l s t v4 v6 s', set_hosts s t l v4 v6 = Ok s' -> t_probe s' = t_probe s.
Proof.
  induction l as [|n l IH]; intros s t v4 v6 s' E; cbn [set_hosts] in E; [done_probe E|]. apply bind_ok in E as (s1 & E1 & E). apply bind_ok in E as (s2 & E2 & E). apply IH in E. apply update_tp in E1, E2. congruence.
Qed.
Lemma interface_tp : forall s t i n s', set_interface_addresses s t i n = Ok s' -> t_probe s' = t_probe s.
Proof. intros s t i n s' E. unfold set_interface_addresses in E. destruct i as [i|]; [|done_probe E]. cbv zeta in E. apply bind_ok in E as (hs & _ & E). eapply hosts_tp. exact E. Qed.
Lemma all_tp : forall l s t ty i s', set_all s t l ty i = Ok s' -> t_probe s' = t_probe s.
Proof.
  induction l as [|x l IH]; intros s t ty i s' E; cbn [set_all] in E; [done_probe E|]. apply bind_ok in E as (X & _ & E). apply bind_ok in E as (s1 & E1 & E). apply IH in E. rewrite E.
  destruct (a_type (rr X) =? ty); [|done_probe E1]. destruct (is_zero i); [done_probe E1|]. destruct (ty =? QTYPE_A); apply set_tp in E1; exact E1.
Qed.
Lemma shutdown_tp : forall l s s', shutdown_all s l = Ok s' -> t_probe s' = t_probe s.
Proof. induction l as [|x l IH]; intros s s' E; cbn [shutdown_all] in E; [done_probe E|]. apply bind_ok in E as (X & _ & E). apply IH in E. exact E. Qed.
Lemma clear_tp : forall l s s', clear_all s l = Ok s' -> t_probe s' = t_probe s.
Proof.
  induction l as [|x l IH]; intros s s' E; cbn [clear_all] in E; [done_probe E|]. apply bind_ok in E as (X & _ & E). apply bind_ok in E as (s1 & E1 & E). apply IH in E. apply remove_lists_tp in E1. rewrite E. exact E1.
Qed.

(* mdnsd_in *)
Lemma disco_tp : forall fuel s t r name ty s', disco_loop fuel s t r name ty = Ok s' -> t_probe s' = t_probe s.
Proof.
  induction fuel as [|fuel IH]; intros s t r name ty s' E; [discriminate|]. cbn [disco_loop] in E. destruct r as [x|]; [|done_probe E]. apply bind_ok in E as (X & _ & E). apply bind_ok in E as (s1 & E1 & E). apply bind_ok in E as (n & _ & E).
  apply IH in E. rewrite E. destruct (bytes_eqb _ _); [apply send_tp in E1; exact E1|done_probe E1].
Qed.
Lemma refresh_R : forall d e b, R (refresh d e b) = R d.
Proof. intros d e b. unfold refresh. destruct (_ && _); [reflexivity|]. destruct (e_ifs e); reflexivity. Qed.
Lemma is_local_R : forall d e from d' l, is_local d e from = (d', l) -> R d' = R d.
Proof. intros d e from d' l E. unfold is_local in E. cbv zeta in E. destruct (family from =? AF_INET6); destruct (bytes_eqb _ _); injection E as <- _; auto; apply refresh_R. Qed.
Lemma recheck_R : forall d e from did d' l, recheck d e from did = (d', l) -> R d' = R d.
Proof. intros d e from did d' l E. unfold recheck in E. apply is_local_R in E. rewrite E. destruct did; [reflexivity|apply refresh_R]. Qed.
Lemma probe_check_tp : forall an d e from did q r d' did' c, probe_check d e from did q r an = Ok (d', did', c) -> t_probe (R d') = t_probe (R d).
Proof.
  induction an as [|a an IH]; intros d e from did q r d' did' c E; cbn [probe_check] in E; [injection E as <- _ _; reflexivity|]. destruct (negb (same_q q a)); [eapply IH; exact E|]. apply bind_ok in E as (x & _ & E).
  destruct (a_match a (rr x)); [eapply IH; exact E|]. destruct (recheck d e from did) as [d1 l] eqn:E1. apply recheck_R in E1. destruct l; [apply IH in E; congruence|]. apply bind_ok in E as (s & E2 & E). injection E as <- _ _. apply conflict_tp in E2. cbn [with_R R]. congruence.
Qed.
Lemma known_check_R : forall an d q x d' b, known_check d q x an = (d', b) -> R d' = R d.
Proof.
  induction an as [|a an IH]; intros d q x d' b E; cbn [known_check] in E; [injection E as <- _; reflexivity|]. destruct (negb _); [eapply IH; exact E|]. cbv zeta in E.
  assert (A : R (if has_recv d then add_received d a else d) = R d) by (destruct (has_recv d); reflexivity). destruct (a_match a (rr x)); [injection E as <- _; exact A|]. apply IH in E. congruence.
Qed.
Lemma answer_tp : forall fuel d e from did q an r conf d' did' conf', answer_loop fuel d e from did q an r conf = Ok (d', did', conf') -> t_probe (R d') = t_probe (R d).
Proof.
  induction fuel as [|fuel IH]; intros d e from did q an r conf d' did' conf' E; [discriminate|]. cbn [answer_loop] in E. destruct r as [r|]; [|injection E as <- _ _; reflexivity]. apply bind_ok in E as (n & _ & E). apply bind_ok in E as (x & _ & E).
  destruct (_ && _); [apply bind_ok in E as ([[d1 did1] c] & E1 & E); apply probe_check_tp in E1; apply IH in E; congruence|]. destruct (known_check d q x an) as [d1 k] eqn:E1. apply known_check_R in E1.
  destruct k; [apply IH in E; congruence|]. apply bind_ok in E as (s & E2 & E). apply send_tp in E2. apply IH in E. cbn [with_R R] in E. congruence.
Qed.
Lemma questions_tp : forall qd d e from did id an d', questions d e from did id qd an = Ok d' -> t_probe (R d') = t_probe (R d).
Proof.
  induction qd as [|q qd IH]; intros d e from did id an d' E; cbn [questions] in E; [done_probe E|]. destruct (negb _); [eapply IH; exact E|]. apply bind_ok in E as (r & _ & E). destruct r as [r|]; [|eapply IH; exact E].
  destruct (bytes_eqb _ _); cbv zeta in E.
  - apply bind_ok in E as (s & E1 & E). apply disco_tp in E1. apply IH in E. exact (eq_trans E E1).
  - apply bind_ok in E as ([[d1 did1] conf] & E1 & E). apply answer_tp in E1. apply IH in E. rewrite E. destruct (_ && _); exact E1.
Qed.
Lemma responses_tp : forall an d e from did d', responses d e from did an = Ok d' -> t_probe (R d') = t_probe (R d).
Proof.
  induction an as [|a an IH]; intros d e from did d' E; cbn [responses] in E; [done_probe E|]. apply bind_ok in E as (r & _ & E). apply bind_ok in E as ([[d1 did1] skip] & E1 & E).
  assert (A : t_probe (R d1) = t_probe (R d)).
  { destruct r as [r|]; [|injection E1 as <- _ _; reflexivity]. apply bind_ok in E1 as (x & _ & E1). destruct (_ && _) in E1; [|injection E1 as <- _ _; reflexivity]. destruct (recheck d e from did) as [d2 l] eqn:E2. apply recheck_R in E2.
    destruct l; [injection E1 as <- _ _; congruence|]. apply bind_ok in E1 as (s & E3 & E1). injection E1 as <- _ _. apply conflict_tp in E3. cbn [with_R R]. congruence. }
  destruct skip; [apply IH in E; congruence|]. cbv zeta in E. apply bind_ok in E as (q & _ & E). apply IH in E. cbn [with_Q R] in E. rewrite E. destruct (has_recv d1); exact A.
Qed.
Lemma in_tp : forall d e m from d' n, mdnsd_in d e m from = Ok (d', n) -> t_probe (R d') = t_probe (R d).
Proof.
  intros d e m from d' n E. unfold mdnsd_in in E. destruct (is_shutdown d); [injection E as <- _; reflexivity|]. cbv zeta in E. destruct (is_local (with_now d (e_now e)) e from) as [d1 l] eqn:E1. apply is_local_R in E1.
  destruct l; [injection E as <- _; rewrite E1; reflexivity|]. apply bind_ok in E as (d2 & E2 & E). injection E as <- _. destruct (_ =? _); [apply questions_tp in E2|apply responses_tp in E2]; rewrite E2, E1; reflexivity.
Qed.

(* mdnsd_out after shutdown *)
Lemma r_out_tp : forall fuel s t frm cls dsc q m seen ret s' m' seen' ret', r_out fuel s t frm cls dsc q m seen ret = Ok (s', m', seen', ret') -> t_probe s' = t_probe s.
Proof.
  induction fuel as [|fuel IH]; intros s t frm cls dsc q m seen ret s' m' seen' ret' E; [discriminate|]. cbn [r_out] in E. destruct (head s q) as [r|]; [|injection E as <- _ _ _; reflexivity].
  apply bind_ok in E as (X & EX & E). destruct (_ <? _); [|injection E as <- _ _ _; reflexivity]. cbv zeta in E. destruct (_ && _); [apply IH in E; exact E|]. destruct (_ =? _).
  - apply bind_ok in E as (s1 & E1 & E). apply bind_ok in E as (s2 & E2 & E). apply IH in E. apply rdone_tp in E2. apply remove_lists_tp in E1. rewrite E, E2, E1. reflexivity.
  - apply IH in E. exact E.
Qed.
Lemma pub_loop_tp : forall fuel s t frm cls cur last m seen ret s' m' seen' ret', pub_loop fuel s t frm cls cur last m seen ret = Ok (s', m', seen', ret') -> t_probe s' = t_probe s.
Proof.
  induction fuel as [|fuel IH]; intros s t frm cls cur last m seen ret s' m' seen' ret' E; [discriminate|]. cbn [pub_loop] in E. destruct cur as [c|]; [|injection E as <- _ _ _; reflexivity].
  apply bind_ok in E as (X & EX & E). destruct (_ <? _) in E; [|injection E as <- _ _ _; reflexivity]. cbv zeta in E. destruct (_ && _) in E; [apply IH in E; exact E|].
  apply bind_ok in E as (s1 & E1 & E). apply bind_ok in E as (s2 & E2 & E). apply IH in E. rewrite E.
  assert (F2 : t_probe s2 = t_probe s1) by (destruct (_ =? _) in E2; [apply rdone_tp in E2; exact E2|injection E2 as <-; reflexivity]). rewrite F2.
  assert (F1 : forall s0, match last with None => Ok s0 | Some l => y <- hget (hp s0) l;; Ok (set_hp s0 (hset (hp s0) l (set_link y (link X)))) end = Ok s1 -> t_probe s1 = t_probe s0).
  { intros s0 Q. destruct last; [apply bind_ok in Q as (y & _ & Q)|]; injection Q as <-; reflexivity. }
  apply F1 in E1. rewrite E1. destruct (ptr_eqb _ _); reflexivity.
Qed.
Lemma out_publish_tp : forall s t frm cls m seen ret s' m' seen' ret', out_publish s t frm cls m seen ret = Ok (s', m', seen', ret') -> t_probe s' = t_probe s.
Proof.
  intros s t frm cls m seen ret s' m' seen' ret' E. unfold out_publish in E. destruct (probing s); [injection E as <- _ _ _; reflexivity|]. destruct (a_publish s); [|injection E as <- _ _ _; reflexivity].
  destruct (_ <=? _); [|injection E as <- _ _ _; reflexivity]. apply bind_ok in E as ([[[s1 m1] seen1] ret1] & E1 & E). injection E as <- _ _ _. apply pub_loop_tp in E1. destruct (a_publish s1); exact E1.
Qed.
Lemma goodbye_tp : forall d e d' m n, uans (R d) = [] -> is_shutdown d = true -> mdnsd_out d e = Ok (d', m, n) -> t_probe (R d') = t_probe (R d).
Proof.
  intros d e d' m n U S E. unfold mdnsd_out in E. cbv zeta in E. change (uans (R (with_now d (e_now e)))) with (uans (R d)) in E. change (is_shutdown (with_now d (e_now e))) with (is_shutdown d) in E. rewrite U, S in E.
  apply bind_ok in E as ([[[s1 m1] se1] r1] & E1 & E). apply bind_ok in E as ([[[s2 m2] se2] r2] & E2 & E). injection E as <- _ _. apply r_out_tp in E1. apply out_publish_tp in E2. cbn [with_R R]. rewrite E2, E1. reflexivity.
Qed.


Lemma due_micros : forall t u, tvdiff t u <=? 0 = true <-> micros u <= micros t.
Proof. intros t u. unfold tvdiff, micros. lia. Qed.

Lemma out_probe_time : forall d e d' m n, reach d -> legal d e OOut -> step d e OOut = Ok (d', RMsg m n) ->
  (t_probe (R d') = t_probe (R d) /\ ~ sends_probe (mkevent d e OOut (RMsg m n) d')) \/ (micros (t_probe (R d)) <= micros (e_now e) /\ micros (t_probe (R d')) = micros (e_now e) + 250000).
Proof.
  intros d e d' m n K L E. destruct (reach_dinv d K) as (qs & H & C). destruct (out_given d e d' m n qs H C L E) as (qs' & O & H').
  assert (NS : forall r m0, (forall i, In i (items (o_calls m0)) -> section_of i <> 2%nat) -> ~ probes_for r (mkevent d e OOut (RMsg m0 n) d')).
  { intros r m0 NS (m1 & n1 & X & _ & E1 & _ & _ & _ & I). cbn [ev_result] in E1. injection E1 as <- _. exact (NS _ I eq_refl). }
  destruct (out_fates d e qs d' m n qs' H O) as (S & B & _ & Sp & _).
  assert (NP : o_qr m = true -> ~ sends_probe (mkevent d e OOut (RMsg m n) d')).
  { intros Q (r & m1 & n1 & X & _ & E1 & Q1 & _). cbn [ev_result] in E1. injection E1 as <- _. congruence. }
  destruct O as [u us X added Eu EX G|N restN P restP s' Eu Sd E1 E2 Dp A Ua Cf Bl|N restN P restP A restA s' added all seen Eu Sd D Eall Nall Eseen Af Ua Tp Tb Cf Tq G|N restN A restA s' l Eu Sd D E1 E2 El La Af Ua Cf Tp Tb Tq|N restN A restA s' q1 q' l m ret T V Eu Sd D E1 E2 El La Af Ua Cf Tp Tb Tq QO Ql Sh Zq Uq CK TO G].
  - left. split; [reflexivity|apply NP; reflexivity].
  - left. split; [|apply NP; reflexivity]. cbn [step] in E. apply bind_ok in E as ([[d1 m1] n1] & E3 & E). injection E as Ed Em En. rewrite <- Ed. exact (goodbye_tp d e d1 m1 n1 Eu Sd E3).
  - left. split; [exact Tb|apply NP; reflexivity].
  - right. unfold probe_due in El. destruct (tvdiff (e_now e) (t_probe (R d)) <=? 0) eqn:Td; [|subst l; destruct La; reflexivity]. split; [apply due_micros; exact Td|]. cbn [with_R R]. rewrite Tb. unfold micros. cbn [fst snd]. lia.
  - left. split; [exact Tb|]. intros (r & m1 & n1 & X & _ & E3 & _ & _ & _ & I). cbn [ev_result ev_before] in *. injection E3 as <- _. unfold says in I. cbn [o_calls] in I. unfold queries_out in QO. destruct (_ && _).
    + destruct QO as (_ & (ks & -> & _) & _). rewrite items_query in I. apply in_app_or in I as [I|I]; apply in_map_iff in I as (y & Ey & _); discriminate.
    + destruct QO as (-> & _). destruct I.
Qed.

Lemma other_probe_time : forall d e o d' x, reach d -> step d e o = Ok (d', x) -> o <> OOut -> ~ makes_name o -> t_probe (R d') = t_probe (R d).
Proof.
  intros d e o d' x K E No N.
  destruct o; cbn [step] in E; try destruct (N I); try congruence.
  - apply on_new_ok in E as (s & r0 & E1 & -> & ->). match type of E1 with Ok ?p = Ok ?q => assert (E2 : p = q) by congruence end. injection E2 as <- _. reflexivity.
  - apply on_recs_ok in E as (s & E1 & -> & _). apply set_tp in E1. exact E1.
  - apply on_recs_ok in E as (s & E1 & -> & _). apply set_tp in E1. exact E1.
  - apply on_recs_ok in E as (s & E1 & -> & _). apply set_tp in E1. exact E1.
  - apply on_recs_ok in E as (s & E1 & -> & _). apply set_tp in E1. exact E1.
  - apply on_recs_ok in E as (s & E1 & -> & _). apply set_tp in E1. exact E1.
  - apply on_recs_ok in E as (s & E1 & -> & _). apply done_tp in E1. exact E1.
  - apply on_recs_ok in E as (s & E1 & -> & _). apply update_tp in E1. exact E1.
  - apply on_recs_ok in E as (s & E1 & -> & _). apply update_tp in E1. exact E1.
  - apply on_recs_ok in E as (s & E1 & -> & _). apply interface_tp in E1. exact E1.
  - destruct (bytes_eqb _ _); [injection E as <- _; reflexivity|]. apply bind_ok in E as (s & E1 & E). injection E as <- _. apply all_tp in E1. exact E1.
  - destruct (bytes_eqb _ _); [injection E as <- _; reflexivity|]. apply bind_ok in E as (s & E1 & E). injection E as <- _. apply all_tp in E1. exact E1.
  - injection E as <- _. reflexivity.
  - injection E as <- _. reflexivity.
  - apply bind_ok in E as (s & E1 & E). injection E as <- _. unfold shutdown_recs in E1. apply shutdown_tp in E1. exact E1.
  - apply on_recs_ok in E as (s & E1 & -> & _). unfold records_clear in E1. apply bind_ok in E1 as (s1 & E1 & E2). injection E2 as <-. apply clear_tp in E1. exact E1.
  - apply bind_ok in E as (q & E1 & E). injection E as <- _. reflexivity.
  - apply bind_ok in E as ([d1 n] & E1 & E). injection E as <- _. apply in_tp in E1. exact E1.
  - destruct (reach_dinv d K) as (qs & H & _). apply bind_ok in E as ([d1 t] & E1 & E). injection E as <- _. destruct (mdnsd_sleep_spec d e qs H) as (d2 & t2 & qs2 & E2 & A & _). rewrite E2 in E1. injection E1 as <- _. destruct A; try reflexivity. assumption.
  - injection E as <- _. reflexivity.
Qed.

Lemma step_probe_time : forall d e o d' x, reach d -> legal d e o -> step d e o = Ok (d', x) -> ~ makes_name o ->
  (t_probe (R d') = t_probe (R d) /\ ~ sends_probe (mkevent d e o x d')) \/ (micros (t_probe (R d)) <= micros (e_now e) /\ micros (t_probe (R d')) = micros (e_now e) + 250000).
Proof.
  intros d e o d' x K L E N. assert (W : {o = OOut} + {o <> OOut}) by (destruct o; auto; right; discriminate). destruct W as [->|No].
  { destruct (out_result d e d' x E) as (m & n & ->). eapply out_probe_time; eassumption. }
  left. split; [eapply other_probe_time; eassumption|intros (r & P); exact (not_out_probes r d e o x d' No P)].
Qed.

(* ------------------------------------------------------------------ *)
(* Between two events of a history *)
Lemma segment : forall (Inv : daemon -> Prop) (ok : op -> Prop) d0 l1 ev1 l2 d, reach d0 -> history d0 (l1 ++ ev1 :: l2) d -> Inv (ev_after ev1) ->
  (forall d e o x d', reach d -> legal d e o -> step d e o = Ok (d', x) -> ok o -> Inv d -> Inv d') -> (forall ev, In ev l2 -> ok (ev_call ev)) -> Inv d.
Proof.
  intros Inv ok d0 l1 ev1 l2 d K Hh H0 HS Hok. remember (l1 ++ ev1 :: l2) as l eqn:El. revert l2 El Hok. induction Hh as [|l d e o x d' Hh IH Lg E]; intros l2 El Hok; [destruct l1; discriminate|].
  destruct l2 as [|b l2 _] using rev_ind.
  - assert (El' : l ++ [mkevent d e o x d'] = l1 ++ [ev1]) by exact El. apply app_inj_tail in El' as [_ <-]. exact H0.
  - assert (El' : l ++ [mkevent d e o x d'] = (l1 ++ ev1 :: l2) ++ [b]) by (rewrite El, <- app_assoc; reflexivity). apply app_inj_tail in El' as [-> <-].
    apply (HS d e o x d' (history_reach _ _ _ K Hh) Lg E).
    + apply (Hok (mkevent d e o x d')). apply in_or_app. right. left. reflexivity.
    + apply (IH l2 eq_refl). intros ev I. apply Hok. apply in_or_app. left. exact I.
Qed.

Lemma probes_apart : forall d0 l1 ev1 l2 ev2 l3 d, reach d0 -> history d0 (l1 ++ ev1 :: l2 ++ ev2 :: l3) d -> sends_probe ev1 -> sends_probe ev2 -> (forall ev, In ev l2 -> ~ makes_name (ev_call ev)) ->
  micros (e_now (ev_env ev1)) + 250000 <= micros (e_now (ev_env ev2)).
Proof.
  intros d0 l1 ev1 l2 ev2 l3 d K Hh P1 P2 Q.
  destruct (history_split _ _ _ _ _ Hh) as (H1 & L1 & S1). assert (Hh' : history d0 ((l1 ++ ev1 :: l2) ++ ev2 :: l3) d) by (rewrite <- app_assoc; exact Hh). destruct (history_split _ _ _ _ _ Hh') as (H2 & L2 & S2).
  assert (C : forall ev, sends_probe ev -> ~ makes_name (ev_call ev)) by (intros ev (r & m & n & X & -> & _) []).
  destruct ev1 as [b1 e1 o1 x1 a1], ev2 as [b2 e2 o2 x2 a2]. cbn [ev_before ev_env ev_call ev_result ev_after] in *.
  destruct (step_probe_time b1 e1 o1 a1 x1 (history_reach _ _ _ K H1) L1 S1 (C _ P1)) as [[_ N]|[_ T1]]; [contradiction|].
  destruct (step_probe_time b2 e2 o2 a2 x2 (history_reach _ _ _ K H2) L2 S2 (C _ P2)) as [[_ N]|[T2 _]]; [contradiction|].
  assert (T : micros (e_now e1) + 250000 <= micros (t_probe (R b2))); [|lia].
  eapply (segment (fun d => micros (e_now e1) + 250000 <= micros (t_probe (R d))) (fun o => ~ makes_name o) d0 l1 _ l2 b2 K H2); [cbn [ev_after]; lia| |exact Q].
  intros dd e o x dd' Kd Ld Ed No T. destruct (step_probe_time dd e o dd' x Kd Ld Ed No) as [[-> _]|[A B]]; lia.
Qed.

(* ------------------------------------------------------------------ *)
(* Announcements *)

Definition spaced (T : Z) (d : daemon) : Prop := (forall r, ~ waits d Probing r) /\ ((forall r, ~ waits d Publish r) \/ T <= micros (t_publish (R d))).
Definition spaced' (T : Z) (s : recs) (qs : queue -> list nat) : Prop := qs Probing = [] /\ (qs Publish = [] \/ T <= micros (t_publish s)).
Lemma none_nil : forall d qs k, rinv (R d) qs -> ((forall r, ~ waits d k r) <-> qs k = []).
Proof.
  intros d qs k H. split.
  - intros N. destruct (qs k) as [|x l] eqn:E; [reflexivity|]. destruct (N x). apply (waits_iff d qs k x H). rewrite E. left. reflexivity.
  - intros E r W. apply (waits_iff d qs k r H) in W. rewrite E in W. exact W.
Qed.
Lemma spaced_iff : forall T d qs, rinv (R d) qs -> (spaced T d <-> spaced' T (R d) qs).
Proof. intros T d qs H. unfold spaced, spaced'. rewrite (none_nil d qs Probing H), (none_nil d qs Publish H). tauto. Qed.

Lemma goodbye_time : forall d e qs d' m n, rinv (R d) qs -> uans (R d) = [] -> is_shutdown d = true -> mdnsd_out d e = Ok (d', m, n) ->
  exists qs', rinv (R d') qs' /\ qs' Probing = qs Probing /\ (qs Publish = [] -> qs' Publish = []) /\
    (qs' Publish = [] \/ t_publish (R d') = if announce_due (R d) qs (e_now e) then (fst (e_now e) + 2, snd (e_now e)) else t_publish (R d)).
Proof.
  intros d e qs d' m n H U S E. unfold mdnsd_out in E. cbv zeta in E. change (uans (R (with_now d (e_now e)))) with (uans (R d)) in E. change (is_shutdown (with_now d (e_now e))) with (is_shutdown d) in E. rewrite U, S in E.
  destruct (out_now_publish (R d) qs (e_now e) (frame d) (class d) (disco d) H U) as (N & restN & P & restP & s2 & Q). cbv zeta in Q. destruct Q as (_ & Ep & _ & E2 & H2 & _ & _ & _ & _ & _ & _ & T & _).
  apply bind_ok in E as ([[[s1 m1] se1] r1] & E1 & E). apply bind_ok in E as ([[[s3 m3] se3] r3] & E3 & E). injection E as <- _ _.
  change (R (with_now d (e_now e))) with (R d) in E1. change (frame (with_now d (e_now e))) with (frame d) in *. change (class (with_now d (e_now e))) with (class d) in *. change (disco (with_now d (e_now e))) with (disco d) in *.
  rewrite E1 in E2. cbn [bind] in E2. rewrite E3 in E2. injection E2 as <- _ _ _. eexists. split; [exact H2|]. rewrite on_same. rewrite !on_other by discriminate. split; [reflexivity|]. split.
  - intros Z. rewrite Z in Ep. destruct P; [|discriminate]. destruct restP; [reflexivity|discriminate].
  - cbn [with_R R]. rewrite T. destruct (stays (hp (R d)) P ++ restP); [left; reflexivity|right]. cbn [negb]. rewrite andb_true_r. reflexivity.
Qed.

Lemma out_time : forall d e d' m n qs, reach d -> rinv (R d) qs -> legal d e OOut -> step d e OOut = Ok (d', RMsg m n) -> qs Probing = [] ->
  exists qs', rinv (R d') qs' /\ qs' Probing = [] /\ (qs Publish = [] -> qs' Publish = []) /\
    (qs' Publish = [] \/ (uans (R d) <> [] /\ t_publish (R d') = t_publish (R d)) \/ t_publish (R d') = if announce_due (R d) qs (e_now e) then (fst (e_now e) + 2, snd (e_now e)) else t_publish (R d)).
Proof.
  intros d e d' m n qs K H L E Zp. destruct (reach_dinv d K) as (_ & _ & C). destruct (out_given d e d' m n qs H C L E) as (qs' & O & H').
  assert (Pd : probe_due (R d) qs (e_now e) = []) by (unfold probe_due; rewrite Zp; destruct (_ <=? _); reflexivity).
  destruct O as [u us X added Eu EX G|N restN P restP s' Eu Sd E1 E2 Dp A Ua Cf Bl|N restN P restP A restA s' added all seen Eu Sd D Eall Nall Eseen Af Ua Tp Tb Cf Tq G|N restN A restA s' l Eu Sd D E1 E2 El La Af Ua Cf Tp Tb Tq|N restN A restA s' q1 q' l m ret T V Eu Sd D E1 E2 El La Af Ua Cf Tp Tb Tq QO Ql Sh Zq Uq CK TO G].
  - exists qs. split; [exact H'|]. split; [exact Zp|]. split; [auto|]. right. left. split; [congruence|reflexivity].
  - cbn [step] in E. apply bind_ok in E as ([[d1 m1] n1] & E3 & E). injection E as Ed Em En. destruct (goodbye_time d e qs d1 m1 n1 H Eu Sd E3) as (qs1 & H1 & A1 & A2 & A3). rewrite Ed in *. exists qs1. split; [exact H1|]. split; [congruence|]. split; [exact A2|]. destruct A3; auto.
  - destruct D as [D1 D2 D3 _ _ _ _ _]. eexists. split; [exact H'|]. unfold left_over. rewrite !on_other by discriminate. split; [exact Zp|]. rewrite on_same. split.
    + intros Z. rewrite Z in D2. destruct P; [|discriminate]. destruct restP; [reflexivity|discriminate].
    + cbn [with_R R]. rewrite Tq. destruct (stays (hp (R d)) P ++ restP); [left; reflexivity|right; right]. cbn [negb]. rewrite andb_true_r. reflexivity.
  - exfalso. apply La. rewrite El, Pd. reflexivity.
  - subst l. rewrite Pd in *. eexists. split; [exact H'|]. rewrite on_same. rewrite (on_other Publish) by discriminate. rewrite on_same. cbn [ready filter rev app] in *. split; [destruct (_ <=? _); [reflexivity|exact Zp]|]. split; [auto|]. right. right. exact Tq.
Qed.

Lemma quiet_spaced : forall T d e o x d', reach d -> legal d e o -> step d e o = Ok (d', x) -> quiet o -> spaced T d -> spaced T d'.
Proof.
  intros T d e o x d' K L E Qo Sp. destruct (reach_dinv d K) as (qs & H & C). apply (spaced_iff T d qs H) in Sp. destruct Sp as [Zp Sp].
  assert (Same : R d' = R d -> spaced T d') by (intros ER; apply (spaced_iff T d' qs); [rewrite ER; exact H|]; rewrite ER; split; assumption).
  destruct o; try destruct Qo; cbn [step] in E.
  - apply on_new_ok in E as (s & r0 & E1 & -> & ->). match type of E1 with Ok ?p = Ok ?q => assert (E2 : p = q) by congruence end. pose proof (mdnsd_shared_inv _ _ _ _ _ _ _ H E2) as (H1 & _). apply (spaced_iff T _ qs); [exact H1|]. injection E2 as <- _. split; assumption.
  - injection E as <- _. apply Same. reflexivity.
  - injection E as <- _. apply Same. reflexivity.
  - apply bind_ok in E as (q & E1 & E). injection E as <- _. apply Same. reflexivity.
  - destruct (out_result d e d' x E) as (m & n & ->). destruct (out_time d e d' m n qs K H L E Zp) as (qs' & H' & Zp' & A & B). apply (spaced_iff T d' qs' H'). split; [exact Zp'|].
    destruct B as [B|[[_ B]|B]]; [left; exact B| |].
    + destruct Sp as [Sp|Sp]; [left; auto|right; congruence].
    + destruct Sp as [Sp|Sp]; [left; auto|right]. rewrite B. unfold announce_due. rewrite Zp. destruct (qs Publish); [exact Sp|]. destruct (tvdiff (e_now e) (t_publish (R d)) <=? 0) eqn:Td; [|exact Sp]. apply due_micros in Td. unfold micros in *. cbn [fst snd]. lia.
  - apply bind_ok in E as ([d1 t] & E1 & E). injection E as <- _. destruct (mdnsd_sleep_spec d e qs H) as (d2 & t2 & qs2 & E2 & A & H2). rewrite E2 in E1. injection E1 as <- _. destruct A; try (apply Same; reflexivity).
    match goal with Z : forall k, qs k = [] |- _ => rename Z into Z0 end. apply (spaced_iff T _ _ H2). split; [rewrite on_other by discriminate; apply Z0|left; rewrite on_other by discriminate; apply Z0].
  - injection E as <- _. apply Same. reflexivity.
Qed.

Lemma announces_due : forall d e o x d' r qs, reach d -> rinv (R d) qs -> legal d e o -> step d e o = Ok (d', x) -> singular d r -> announces r (mkevent d e o x d') ->
  o = OOut /\ uans (R d) = [] /\ announce_due (R d) qs (e_now e) = true.
Proof.
  intros d e o x d' r qs K H L E Sg [M W]. pose proof M as (m & n & X & Eo & Ex & Q & U & EX & I). cbn [ev_call ev_result ev_before] in *. subst o x. split; [reflexivity|]. split; [exact U|]. apply (waits_iff d qs Publish r H) in W.
  destruct (reach_dinv d K) as (_ & _ & C). destruct (out_given d e d' m n qs H C L E) as (qs' & O & H'). destruct (out_fates d e qs d' m n qs' H O) as (S & B & F & Sp & _).
  pose proof (says_sent d e m n d' S B r Sp Sg M) as IS. destruct (announce_due (R d) qs (e_now e)) eqn:Ad; [reflexivity|]. exfalso.
  assert (Hs : forall dsc l, In r (sent_of dsc (hp (R d)) l) -> In r l) by (intros dsc l; unfold sent_of; intros J; apply filter_In in J; apply J).
  assert (Key : forall s' N A restN restA, qs Now = N ++ restN -> qs Pause = A ++ restA -> hp (R d') = hp s' -> after (sent_rec (e_now e) (sent_of (disco d) (hp (R d)) N ++ sent_of (disco d) (hp (R d)) A) []) (hp (R d)) (hp s') -> In r (qs' Publish) -> False).
  { intros s' N A restN restA EN EA Ehp Af J. specialize (Af r). unfold record in EX. rewrite EX in Af. unfold sent_rec in Af.
    assert (M1 : mem r (sent_of (disco d) (hp (R d)) N ++ sent_of (disco d) (hp (R d)) A) = false).
    { apply mem_false. intros J1. apply in_app_or in J1 as [J1|J1]; apply Hs in J1.
      - assert (Z : Now = Publish); [|discriminate]. apply (qk_disj _ _ (ri_q _ _ H) Now Publish r); [rewrite EN; apply in_or_app; left; exact J1|exact W].
      - assert (Z : Pause = Publish); [|discriminate]. apply (qk_disj _ _ (ri_q _ _ H) Pause Publish r); [rewrite EA; apply in_or_app; left; exact J1|exact W]. }
    rewrite M1 in Af. cbn [mem existsb] in Af. destruct F as [_ F]. specialize (F r X EX). rewrite Ehp in F. destruct (hp s' r) as [Y|] eqn:EY; [|discriminate].
    assert (N2 : nolink Y = nolink X) by exact (f_equal (fun o => match o with Some y => y | None => nolink X end) Af). apply nolink_fields in N2 as (_ & _ & _ & Et & _).
    remember (Some Y) as V eqn:EV. destruct F as [I1 I2 I3|Y0 I1 I2 I3 I4 I5|Y0 I1 I2 I3 I4 I5 I6 I7|Y0 I1 I2 I3|Y0 I1 I2 I3|Y0 I1 I2 I3 I4 I5 I6|Y0 I1 I2 I3 I4]; try discriminate; try contradiction.
    - exact (I5 Publish J).
    - injection EV as ->. lia. }
  destruct O as [u us X0 added Eu EX0 G|N restN P restP s' Eu Sd E1 E2 Dp A Ua Cf Bl|N restN P restP A restA s' added all sn Eu Sd D Eall Nall Eseen Af Ua Tp Tb Cf Tq G|N restN A restA s' l Eu Sd D E1 E2 El La Af Ua Cf Tp Tb Tq|N restN A restA s' q1 q' l m ret T V Eu Sd D E1 E2 El La Af Ua Cf Tp Tb Tq QO Ql Sh Zq Uq CK TO G]; try discriminate Q.
  - congruence.
  - pose proof (Dp Ad) as ->. apply (Key s' N [] restN (qs Pause) E1 eq_refl eq_refl).
    + unfold sent_of at 2. cbn [filter]. rewrite app_nil_r. exact A.
    + rewrite on_same. cbn [stays filter app] in *. rewrite <- E2. exact W.
  - destruct D as [D1 D2 D3 D4 _ _ _ _]. pose proof (D4 Ad) as ->. apply (Key s' N A restN restA D1 D3 eq_refl Af). unfold left_over. rewrite on_other by discriminate. rewrite on_same. cbn [stays filter app] in *. rewrite <- D2. exact W.
Qed.

Lemma announcements_apart : forall d0 l1 ev1 l2 ev2 l3 d r1 r2, reach d0 -> history d0 (l1 ++ ev1 :: l2 ++ ev2 :: l3) d -> announces r1 ev1 -> announces r2 ev2 ->
  singular (ev_before ev1) r1 -> singular (ev_before ev2) r2 -> (forall ev, In ev l2 -> quiet (ev_call ev)) ->
  micros (e_now (ev_env ev1)) + 2000000 <= micros (e_now (ev_env ev2)).
Proof.
  intros d0 l1 ev1 l2 ev2 l3 d r1 r2 K Hh P1 P2 Sg1 Sg2 Q.
  destruct (history_split _ _ _ _ _ Hh) as (H1 & L1 & S1). assert (Hh' : history d0 ((l1 ++ ev1 :: l2) ++ ev2 :: l3) d) by (rewrite <- app_assoc; exact Hh). destruct (history_split _ _ _ _ _ Hh') as (H2 & L2 & S2).
  destruct ev1 as [b1 e1 o1 x1 a1], ev2 as [b2 e2 o2 x2 a2]. cbn [ev_before ev_env ev_call ev_result ev_after] in *.
  pose proof (history_reach _ _ _ K H1) as K1. pose proof (history_reach _ _ _ K H2) as K2. destruct (reach_dinv b1 K1) as (qs1 & I1 & _). destruct (reach_dinv b2 K2) as (qs2 & I2 & _).
  destruct (announces_due b1 e1 o1 x1 a1 r1 qs1 K1 I1 L1 S1 Sg1 P1) as (-> & U1 & D1). destruct (announces_due b2 e2 o2 x2 a2 r2 qs2 K2 I2 L2 S2 Sg2 P2) as (-> & U2 & D2).
  assert (Sp : spaced (micros (e_now e1) + 2000000) a1).
  { destruct (out_result b1 e1 a1 x1 S1) as (m & n & ->). assert (Zp : qs1 Probing = []) by (unfold announce_due in D1; destruct (qs1 Probing); [reflexivity|discriminate]).
    destruct (out_time b1 e1 a1 m n qs1 K1 I1 L1 S1 Zp) as (qs' & H' & Zp' & _ & B). apply (spaced_iff _ a1 qs' H'). split; [exact Zp'|]. destruct B as [B|[[B _]|B]]; [left; exact B|contradiction|right]. rewrite D1 in B. rewrite B. unfold micros. cbn [fst snd]. lia. }
  pose proof (segment (spaced (micros (e_now e1) + 2000000)) quiet d0 l1 _ l2 b2 K H2 Sp (quiet_spaced _) Q) as Sp2. apply (spaced_iff _ b2 qs2 I2) in Sp2. destruct Sp2 as [Zp Sp2]. unfold announce_due in D2. rewrite Zp in D2.
  destruct (qs2 Publish); [discriminate|]. apply due_micros in D2. destruct Sp2 as [Sp2|Sp2]; [discriminate|]. lia.
Qed.
