(* What a received response does to the daemon. *)
From Verif Require Import Base Lemmas Hash HashProofs Wire Rec Qry Out In Api RecInv RecSafe RecOps RecAddr OutSafe QryInv QryOps CacheOps QryReg QryLoop InSafe InLoop.

Definition heard (d : daemon) (s : recs) (q : qrys) (i : option (list ifaddr)) (tm : Z) (rc : list resource) : daemon :=
  mkdaemon s q (now d) (expireall d) (class d) (frame d) (is_shutdown d) (disco d) (d_family d) (d_addr d) (d_addr6 d) i tm (has_recv d) rc.

(* The record in dispute: the first of this name and type *)
Definition disputes (a : resource) (X : mrec) : bool := negb (unique X =? 0) && modified X && a_match a (rr X).
Definition contested (d : daemon) (a : resource) : option (nat * mrec) :=
  match hd_error (cands (hp (R d)) (rr_name a) (rr_type a) (chain_of (R d) (rr_name a))) with
  | Some r => match hp (R d) r with Some X => if disputes a X then Some (r, X) else None | None => None end
  | None => None
  end.

(* Records given up *)
Definition given_up (s s' : recs) (r : nat) (X : mrec) : Prop :=
  hp s r = Some X /\ hbut r (hp s) (hp s') /\
  (if probes X then hp s' r = None /\ uans s' = filter (fun u => negb (Nat.eqb (u_r u) r)) (uans s)
   else (exists Y, hp s' r = Some Y /\ nolink Y = nolink (gone X)) /\ uans s' = uans s) /\
  fresh s' = fresh s /\ conflicts s' = conflicts s ++ report X.

Lemma r_conflict_any : forall s qs t r X, rinv s qs -> hp s r = Some X -> unique X <> 0 ->
  exists s', r_conflict s t r = Ok s' /\ rinv s' (if probes X then on Probing (remove1 r (qs Probing)) qs else sent_queues X r qs) /\ given_up s s' r X.
Proof.
  intros s qs t r X H E N. unfold given_up. destruct (probes X) eqn:P.
  - destruct (conflict_probing s qs t r X H E P) as (s' & E' & H' & A1 & A2 & A3 & A4 & A5 & A6). exists s'. auto 10.
  - destruct (conflict_sends s qs t r X H E P N) as (s' & E' & H' & A1 & A2 & A3 & A4 & A5 & A6). exists s'. auto 10.
Qed.

Definition new_ttl (now : Z) (a : resource) : Z := now + rr_ttl a / 2 + 8.

Lemma response_spec : forall d e from did a an qs, rinv (R d) qs -> qinv (Q d) -> 0 <= fst (now d) -> wf_resource a -> (did = true -> ifs d = view d e) ->
  let me := is_me d e from in
  let i0 := cbucket (rr_name a) in
  exists s' q' i tm L did' qs' T,
    responses d e from did (a :: an) = responses (heard d s' q' i tm (received d ++ L)) e from did' an /\
    (i = ifs d \/ i = view d e) /\ (did' = true -> i = view d e) /\ rinv s' qs' /\ qinv q' /\ shrinks (e_cb e) (Q d) q' T /\
    match contested d a with
    | Some (r, X) => if me then s' = R d /\ qs' = qs else given_up (R d) s' r X /\ qs' = (if probes X then on Probing (remove1 r (qs Probing)) qs else sent_queues X r qs)
    | None => s' = R d /\ qs' = qs
    end /\
    (if me && match contested d a with Some _ => true | None => false end then q' = Q d /\ T = [] /\ L = []
     else L = (if has_recv d then [a] else []) /\ exists o id,
       Forall2 crel (cached_in id (fst (now d)) (class d) a from o (centries (Q d) i0)) (centries q' i0) /\ (forall j, j <> i0 -> Forall2 crel (centries (Q d) j) (centries q' j)) /\
       ((forall k, e_cb e k = false) -> qh q' = qh (Q d) /\ qlist q' = qlist (Q d) /\ qtab q' = qtab (Q d) /\ query_for (Q d) (rr_name a) (rr_type a) o /\
         centries q' i0 = cached_in id (fst (now d)) (class d) a from o (centries (Q d) i0) /\
         (forall j, j <> i0 -> centries q' j = centries (Q d) j) /\ T = told_of (Q d) (fst (now d)) (class d) a from o (centries (Q d) i0))).
Proof.
  intros d e from did a an qs H Hq N W D me i0. cbn [responses]. rewrite (r_next_first _ _ _ (ri_p _ _ H)). cbn [bind]. unfold contested.
  assert (Cache : forall s1 i1 tm1 did1 qs1, rinv s1 qs1 -> (i1 = ifs d \/ i1 = view d e) -> (did1 = true -> i1 = view d e) ->
    exists q' i tm L did' T,
      (let d1 := heard d s1 (Q d) i1 tm1 (received d) in
       let d2 := if has_recv d1 then add_received d1 a else d1 in
       q <- cache_rr (Q d2) (fst (now d2)) (e_cb e) (class d2) a from;; responses (with_Q d2 q) e from did1 an) = responses (heard d s1 q' i tm (received d ++ L)) e from did' an /\
      (i = ifs d \/ i = view d e) /\ (did' = true -> i = view d e) /\ qinv q' /\ shrinks (e_cb e) (Q d) q' T /\
      L = (if has_recv d then [a] else []) /\ exists o id,
       Forall2 crel (cached_in id (fst (now d)) (class d) a from o (centries (Q d) i0)) (centries q' i0) /\ (forall j, j <> i0 -> Forall2 crel (centries (Q d) j) (centries q' j)) /\
       ((forall k, e_cb e k = false) -> qh q' = qh (Q d) /\ qlist q' = qlist (Q d) /\ qtab q' = qtab (Q d) /\ query_for (Q d) (rr_name a) (rr_type a) o /\
         centries q' i0 = cached_in id (fst (now d)) (class d) a from o (centries (Q d) i0) /\
         (forall j, j <> i0 -> centries q' j = centries (Q d) j) /\ T = told_of (Q d) (fst (now d)) (class d) a from o (centries (Q d) i0))).
  { intros s1 i1 tm1 did1 qs1 H1 I1 Di1. destruct (cache_rr_spec (Q d) (fst (now d)) (e_cb e) (class d) a from Hq N W) as (q' & T & o & id & Ec & Hq' & Sh & C1 & C2 & C3).
    exists q', i1, tm1, (if has_recv d then [a] else []), did1, T. cbv zeta.
    split; [|split; [exact I1|split; [exact Di1|split; [exact Hq'|split; [exact Sh|split; [reflexivity|exists o, id; auto]]]]]].
    cbn [heard has_recv]. destruct (has_recv d) eqn:Hr; cbn [add_received Q now class]; cbn [heard Q now class]; rewrite Ec; cbn [bind]; unfold with_Q, add_received, heard; cbn [R Q now expireall class frame is_shutdown disco d_family d_addr d_addr6 ifs ifs_time has_recv received]; rewrite ?Hr, ?app_nil_r; reflexivity. }
  assert (Same : d = heard d (R d) (Q d) (ifs d) (ifs_time d) (received d)) by (destruct d; reflexivity).
  destruct (hd_error (cands (hp (R d)) (rr_name a) (rr_type a) (chain_of (R d) (rr_name a)))) as [r|] eqn:Hd.
  - destruct (hp (R d) r) as [X|] eqn:EX.
    2:{ exfalso. destruct (cands (hp (R d)) (rr_name a) (rr_type a) (chain_of (R d) (rr_name a))) as [|r' l] eqn:El; [discriminate|]. injection Hd as ->.
        assert (I : In r (cands (hp (R d)) (rr_name a) (rr_type a) (chain_of (R d) (rr_name a)))) by (rewrite El; left; reflexivity). apply cands_in in I as (_ & X & K & _). congruence. }
    rewrite (hget_some _ _ _ EX). cbn [bind]. fold (disputes a X). destruct (disputes a X) eqn:Dp.
    + destruct (recheck_spec d e from did D) as (tm & Er). rewrite Er. fold me. destruct me eqn:Me; cbn [andb].
      * cbn [bind]. exists (R d), (Q d), (view d e), tm, [], true, qs, []. rewrite app_nil_r. split; [destruct d; reflexivity|]. split; [auto|]. split; [auto|]. split; [exact H|]. split; [exact Hq|]. split; [apply shrinks_refl|]. auto.
      * cbn [into R now]. assert (Nu : unique X <> 0) by (unfold disputes in Dp; lia).
        destruct (r_conflict_any (R d) qs (now d) r X H EX Nu) as (s1 & E1 & H1 & G1). rewrite E1. cbn [bind].
        destruct (Cache s1 (view d e) tm true _ H1) as (q' & i & tm' & L & did' & T & Ec & Ii & Di & Hq' & Sh & El & K); auto. cbv zeta in Ec.
        exists s1, q', i, tm', L, did', (if probes X then on Probing (remove1 r (qs Probing)) qs else sent_queues X r qs), T.
        split; [exact Ec|]. split; [exact Ii|]. split; [exact Di|]. split; [exact H1|]. split; [exact Hq'|]. split; [exact Sh|]. split; [auto|].
        exact (conj El K).
    + cbn [bind]. destruct (Cache (R d) (ifs d) (ifs_time d) did qs H) as (q' & i & tm' & L & did' & T & Ec & Ii & Di & Hq' & Sh & El & K); auto. cbv zeta in Ec. rewrite <- Same in Ec.
      exists (R d), q', i, tm', L, did', qs, T. rewrite andb_false_r. auto 12.
  - cbn [bind]. destruct (Cache (R d) (ifs d) (ifs_time d) did qs H) as (q' & i & tm' & L & did' & T & Ec & Ii & Di & Hq' & Sh & El & K); auto. cbv zeta in Ec. rewrite <- Same in Ec.
    exists (R d), q', i, tm', L, did', qs, T. rewrite andb_false_r. auto 12.
Qed.

(* ------------------------------------------------------------------ *)
(* All answers *)

Lemma cached_in_source : forall id now cls a from o l c', wf_resource a -> In c' (cached_in id now cls a from o l) ->
  In c' l \/ (rr_ttl a <> 0 /\ akey (c_rr c') = rkey a /\ a_ttl (c_rr c') = new_ttl now a).
Proof.
  intros id now cls a from o l c' W I. unfold cached_in in I. cbv zeta in I. set (l1 := flushed _ _ _ _ l) in I.
  assert (F : forall c, In c l1 -> In c l) by (intros c; unfold l1, flushed; destruct (_ =? _); [rewrite filter_In; tauto|auto]).
  destruct (Z.eqb_spec (rr_ttl a) 0) as [Z0|Z0].
  - left. apply F. unfold withdrawn in I. destruct (existsb _ l1); [apply filter_In in I; tauto|exact I].
  - destruct (existsb (holds_rr a) l1).
    + unfold refreshed in I. apply in_map_iff in I as (c & E & I). destruct (holds_rr a c) eqn:M; [|left; subst c'; auto]. right. subst c'. split; [exact Z0|].
      unfold holds_rr in M. apply a_match_key in M; [|exact W]. split; [rewrite <- M; reflexivity|reflexivity].
    + destruct (cache_answer_ok a (now + rr_ttl a / 2 + 8) from W) as (b & E & K1 & K2 & _). rewrite E in I. destruct I as [<-|I]; [right; auto|left; auto].
Qed.

Definition disputed (an : list resource) (X : mrec) : Prop := exists a, In a an /\ disputes a X = true.
(* What may become of a record *)
Definition fate (p : Prop) (X : mrec) (o : option mrec) : Prop :=
  match o with
  | Some Y => nolink Y = nolink X \/ p /\ probes X = false /\ nolink Y = nolink (gone X)
  | None => p /\ probes X = true
  end.
Definition records_fate (an : list resource) (me : bool) (s s' : recs) : Prop :=
  forall x, match hp s x with Some X => fate (me = false /\ disputed an X) X (hp s' x) | None => hp s' x = None end.

Lemma disputes_nolink : forall a X Y, nolink X = nolink Y -> disputes a X = disputes a Y.
Proof. intros a X Y K. apply nolink_fields in K as (K1 & K2 & K3 & _). unfold disputes. rewrite K1, K2, K3. reflexivity. Qed.
Lemma a_match_gone : forall a X, a_match a (rr (gone X)) = a_match a (rr X).
Proof. intros a X. reflexivity. Qed.
Lemma disputes_gone : forall a X, disputes a (gone X) = disputes a X.
Proof. intros a X. reflexivity. Qed.
Lemma probes_nolink : forall X Y, nolink X = nolink Y -> probes X = probes Y.
Proof. intros X Y K. apply nolink_fields in K as (_ & K & _). unfold probes. rewrite K. reflexivity. Qed.
Lemma gone_nolink : forall X Y, nolink X = nolink Y -> nolink (gone X) = nolink (gone Y).
Proof. intros X Y K. exact (f_equal gone K). Qed.

Lemma fate_step : forall an a me X o1 o2, fate (me = false /\ disputed [a] X) X o1 ->
  match o1 with Some X1 => fate (me = false /\ disputed an X1) X1 o2 | None => o2 = None end -> fate (me = false /\ disputed (a :: an) X) X o2.
Proof.
  intros an a me X o1 o2 F1 F2. assert (D1 : disputed [a] X -> disputed (a :: an) X) by (intros (b & [<-|[]] & K); exists a; split; [left; reflexivity|exact K]).
  destruct o1 as [X1|]; [|subst o2; cbn [fate] in *; tauto].
  assert (D2 : disputed an X1 -> disputed (a :: an) X).
  { intros (b & I & K). exists b. split; [right; exact I|]. cbn [fate] in F1. destruct F1 as [F1|(_ & _ & F1)]; [rewrite <- (disputes_nolink _ _ _ F1); exact K|].
    rewrite (disputes_nolink _ _ _ F1), disputes_gone in K. exact K. }
  cbn [fate] in F1. destruct o2 as [Y|]; cbn [fate] in F2 |- *.
  - destruct F1 as [F1|([M1 M2] & P1 & F1)].
    + destruct F2 as [F2|([M2 M3] & P2 & F2)]; [left; congruence|]. right. rewrite <- (probes_nolink _ _ F1). rewrite <- (gone_nolink _ _ F1). auto.
    + destruct F2 as [F2|(M3 & P2 & F2)]; right; (split; [auto|split; [exact P1|]]); [congruence|]. rewrite F2, (gone_nolink _ _ F1). reflexivity.
  - destruct F2 as [[M2 M3] P2]. destruct F1 as [F1|([M1 M2'] & P1 & F1)].
    + rewrite <- (probes_nolink _ _ F1). auto.
    + exfalso. rewrite (probes_nolink _ _ F1) in P2. unfold probes, gone in *. cbn [unique set_rr] in P2. congruence.
Qed.

Lemma given_up_fate : forall s s' r X a, given_up s s' r X -> disputes a X = true -> records_fate [a] false s s'.
Proof.
  intros s s' r X a (E & B & G & _) Dp x. destruct (Nat.eq_dec x r) as [->|N].
  - rewrite E. assert (P : false = false /\ disputed [a] X) by (split; [reflexivity|]; exists a; split; [left; reflexivity|exact Dp]). destruct (probes X) eqn:Pr.
    + destruct G as [G _]. rewrite G. cbn [fate]. auto.
    + destruct G as [(Y & EY & K) _]. rewrite EY. cbn [fate]. right. auto.
  - specialize (B x N). destruct (hp s x) as [Y|]; [|destruct (hp s' x); [discriminate|reflexivity]]. cbn [option_map] in B.
    destruct (hp s' x) as [Z|]; [|discriminate]. cbn [fate]. left. exact (f_equal (fun o => match o with Some y => y | None => nolink Y end) (eq_sym B)).
Qed.
Lemma same_fate : forall an me s, records_fate an me s s.
Proof. intros an me s x. destruct (hp s x); [left; reflexivity|reflexivity]. Qed.

Lemma contested_some : forall d a r X, contested d a = Some (r, X) -> hp (R d) r = Some X /\ disputes a X = true.
Proof.
  intros d a r X K. unfold contested in K. destruct (hd_error _) as [r'|]; [|discriminate]. destruct (hp (R d) r') as [Y|] eqn:E; [|discriminate]. destruct (disputes a Y) eqn:Dp; [|discriminate].
  injection K as -> ->. auto.
Qed.

Lemma responses_sound : forall an d e from did qs, rinv (R d) qs -> qinv (Q d) -> 0 <= fst (now d) -> Forall wf_resource an -> (did = true -> ifs d = view d e) ->
  let me := is_me d e from in
  exists s' q' i tm L qs' T C,
    responses d e from did an = Ok (heard d s' q' i tm (received d ++ L)) /\ (i = ifs d \/ i = view d e) /\ rinv s' qs' /\ qinv q' /\ shrinks (e_cb e) (Q d) q' T /\
    records_fate an me (R d) s' /\ fresh s' = fresh (R d) /\
    (forall u, In u (uans s') -> In u (uans (R d))) /\ (forall u, In u (uans (R d)) -> In u (uans s') \/ hp s' (u_r u) = None) /\
    conflicts s' = conflicts (R d) ++ C /\ (forall c, In c C -> me = false /\ exists x X, hp (R d) x = Some X /\ disputed an X /\ In c (report X)) /\
    (forall j c', In c' (centries q' j) -> (exists c, In c (centries (Q d) j) /\ crel c c') \/
       exists a, In a an /\ rr_ttl a <> 0 /\ akey (c_rr c') = rkey a /\ a_ttl (c_rr c') = new_ttl (fst (now d)) a) /\
    ((forall k, e_cb e k = false) -> qh q' = qh (Q d) /\ qlist q' = qlist (Q d) /\ qtab q' = qtab (Q d)) /\
    incl L an /\ (has_recv d = false -> L = []).
Proof.
  induction an as [|a an IH]; intros d e from did qs H Hq N W D me.
  - cbn [responses]. exists (R d), (Q d), (ifs d), (ifs_time d), [], qs, [], []. rewrite !app_nil_r. split; [destruct d; reflexivity|]. split; [auto|]. split; [exact H|]. split; [exact Hq|].
    split; [apply shrinks_refl|]. split; [apply same_fate|]. split; [reflexivity|]. split; [auto|]. split; [auto|]. split; [reflexivity|]. split; [intros c []|].
    split; [intros j c I; left; exists c; split; [exact I|apply crel_refl]|]. split; [auto|]. split; [intros x []|auto].
  - apply Forall_cons_iff in W as [Wa W].
    destruct (response_spec d e from did a an qs H Hq N Wa D) as (s1 & q1 & i1 & tm1 & L1 & did1 & qs1 & T1 & E1 & Ii & Di & H1 & Hq1 & Sh1 & G1 & Y1). cbv zeta in Y1. fold me in G1, Y1.
    rewrite E1. set (d1 := heard d s1 q1 i1 tm1 (received d ++ L1)) in *. clear E1.
    assert (V1 : view d1 e = view d e).
    { unfold view, d1. destruct (e_ifs e) as [l|] eqn:Ee; [reflexivity|]. cbn [heard ifs]. destruct Ii as [->| ->]; [reflexivity|]. unfold view. rewrite Ee. reflexivity. }
    assert (M1 : is_me d1 e from = me) by (unfold me, is_me; rewrite V1; reflexivity).
    assert (D1 : did1 = true -> ifs d1 = view d1 e) by (intros K; rewrite V1; apply Di; exact K).
    destruct (IH d1 e from did1 qs1 H1 Hq1 N W D1) as (s' & q' & i & tm & L & qs' & T & C & E' & Ii' & H' & Hq' & Sh' & P1 & P2 & P3 & P4 & P5 & P6 & P7 & P8 & P9 & P10).
    rewrite M1 in *. cbn [d1 heard R Q received ifs now has_recv] in E', Ii', Sh', P1, P2, P3, P4, P5, P6, P7, P8, P10.
    assert (F1 : records_fate [a] me (R d) s1 /\ fresh s1 = fresh (R d) /\ (forall u, In u (uans s1) -> In u (uans (R d))) /\ (forall u, In u (uans (R d)) -> In u (uans s1) \/ hp s1 (u_r u) = None) /\
      exists C1, conflicts s1 = conflicts (R d) ++ C1 /\ (forall c, In c C1 -> me = false /\ exists x X, hp (R d) x = Some X /\ disputed [a] X /\ In c (report X))).
    { assert (Nop : s1 = R d /\ qs1 = qs -> records_fate [a] me (R d) s1 /\ fresh s1 = fresh (R d) /\ (forall u, In u (uans s1) -> In u (uans (R d))) /\ (forall u, In u (uans (R d)) -> In u (uans s1) \/ hp s1 (u_r u) = None) /\
        exists C1, conflicts s1 = conflicts (R d) ++ C1 /\ (forall c, In c C1 -> me = false /\ exists x X, hp (R d) x = Some X /\ disputed [a] X /\ In c (report X))).
      { intros [-> _]. split; [apply same_fate|]. split; [reflexivity|]. split; [auto|]. split; [auto|]. exists []. rewrite app_nil_r. split; [reflexivity|intros c []]. }
      destruct (contested d a) as [[r X]|] eqn:Ct; [|apply Nop; exact G1]. destruct me; [apply Nop; exact G1|]. clear Nop. destruct G1 as [G1 _].
      destruct (contested_some _ _ _ _ Ct) as [EX Dp]. pose proof (given_up_fate _ _ _ _ _ G1 Dp) as F. destruct G1 as (_ & B & G & Fr & Cf). split; [exact F|]. split; [exact Fr|].
      destruct (probes X); destruct G as [G Gu]; rewrite Gu.
      - split; [intros u I; apply filter_In in I; tauto|]. split.
        + intros u I. destruct (Nat.eqb_spec (u_r u) r) as [K|K]; [right; rewrite K; exact G|left; apply filter_In; split; [exact I|]]. destruct (Nat.eqb_spec (u_r u) r); [contradiction|reflexivity].
        + exists (report X). split; [exact Cf|]. intros c I. split; [reflexivity|]. exists r, X. split; [exact EX|]. split; [|exact I]. exists a. split; [left; reflexivity|exact Dp].
      - split; [auto|]. split; [auto|]. exists (report X). split; [exact Cf|]. intros c I. split; [reflexivity|]. exists r, X. split; [exact EX|]. split; [|exact I]. exists a. split; [left; reflexivity|exact Dp]. }
    destruct F1 as (F1 & Fr1 & U1 & U2 & C1 & Ec1 & K1).
    assert (L1' : incl L1 [a] /\ (has_recv d = false -> L1 = [])).
    { destruct (me && _); [destruct Y1 as (_ & _ & ->)|destruct Y1 as (-> & _)]; [split; [intros x []|auto]|]. destruct (has_recv d); (split; [|congruence || auto]); [apply incl_refl|intros x []]. }
    assert (Q1 : (forall j c', In c' (centries q1 j) -> (exists c, In c (centries (Q d) j) /\ crel c c') \/ rr_ttl a <> 0 /\ akey (c_rr c') = rkey a /\ a_ttl (c_rr c') = new_ttl (fst (now d)) a) /\
      ((forall k, e_cb e k = false) -> qh q1 = qh (Q d) /\ qlist q1 = qlist (Q d) /\ qtab q1 = qtab (Q d))).
    { destruct (me && _); [destruct Y1 as (-> & _ & _); split; [intros j c' I; left; exists c'; split; [exact I|apply crel_refl]|auto]|].
      destruct Y1 as (_ & o & id & R1 & O1 & Z1). split; [|intros Cb; destruct (Z1 Cb) as (A & B & E & _); auto].
      intros j c' I. destruct (Nat.eq_dec j (cbucket (rr_name a))) as [->|Nj].
      - destruct (Forall2_in_r _ _ _ _ _ _ R1 I) as (c & Ic & Rc). destruct (cached_in_source _ _ _ _ _ _ _ _ Wa Ic) as [K|(K & K2 & K3)]; [left; eauto|right].
        destruct Rc as (_ & Rc & _). rewrite Rc. auto.
      - left. destruct (Forall2_in_r _ _ _ _ _ _ (O1 j Nj) I) as (c & Ic & Rc). eauto. }
    destruct Q1 as [Q1 Q2].
    exists s', q', i, tm, (L1 ++ L), qs', (T1 ++ T), (C1 ++ C). rewrite <- app_assoc in E'.
    split; [unfold d1 in E'; exact E'|]. split. { destruct Ii' as [->| ->]; [exact Ii|]. rewrite V1. auto. } split; [exact H'|]. split; [exact Hq'|]. split; [eapply shrinks_trans; eassumption|].
    split. { intros x. specialize (F1 x). specialize (P1 x). destruct (hp (R d) x) as [X|]; [|rewrite F1 in P1; exact P1]. eapply fate_step; eassumption. }
    split; [congruence|]. split; [auto|].
    split. { intros u I. destruct (U2 u I) as [K|K]; [apply P4; exact K|right]. specialize (P1 (u_r u)). rewrite K in P1. exact P1. }
    split; [rewrite P5, Ec1, app_assoc; reflexivity|].
    split. { intros c I. apply in_app_or in I as [I|I].
      - destruct (K1 c I) as (Me & x & X & EX & (b & [<-|[]] & Dp) & Ic). split; [exact Me|]. exists x, X. split; [exact EX|]. split; [|exact Ic]. exists a. split; [left; reflexivity|exact Dp].
      - destruct (P6 c I) as (Me & x & Y & EY & (b & Ib & Dp) & Ic). split; [exact Me|]. specialize (F1 x). rewrite EY in F1. destruct (hp (R d) x) as [X|] eqn:EX; [|discriminate]. exists x, X. split; [exact EX|].
        cbn [fate] in F1. destruct F1 as [F1|(_ & _ & F1)].
        + rewrite (disputes_nolink _ _ _ F1) in Dp. rewrite (report_nolink _ _ F1) in Ic. split; [|exact Ic]. exists b. split; [right; exact Ib|exact Dp].
        + rewrite (disputes_nolink _ _ _ F1) in Dp. rewrite (report_nolink _ _ F1) in Ic. split; [|exact Ic]. exists b. split; [right; exact Ib|exact Dp]. }
    split. { intros j c' I. destruct (P7 j c' I) as [(c1 & I1 & R1)|(b & Ib & K)].
      - destruct (Q1 j c1 I1) as [(c & Ic & Rc)|(K1' & K2 & K3)]; [left; exists c; split; [exact Ic|eapply crel_trans; eassumption]|].
        right. exists a. destruct R1 as (_ & R1 & _). rewrite R1. split; [left; reflexivity|auto].
      - right. exists b. split; [right; exact Ib|exact K]. }
    split. { intros Cb. destruct (P8 Cb) as (A1 & A2 & A3). destruct (Q2 Cb) as (B1 & B2 & B3). repeat split; congruence. }
    destruct L1' as [L1a L1b]. split.
    + intros x I. apply in_app_or in I as [I|I]; [destruct (L1a x I) as [->|[]]; left; reflexivity|right; apply P9; exact I].
    + intros K. rewrite (L1b K), (P10 K). reflexivity.
Qed.
