(* How long an entry stays in the cache after its time. *)
From Verif Require Import Base Lemmas Hash HashProofs Wire Rec Qry Out In Api RecInv RecSafe RecOps RecAddr OutSafe OutPub OutProbe OutExtra QryInv QryOps CacheOps QryLoop OutAll OutSpec Shut InSafe InLoop InResp DaemonInv FactsIn SpecDaemon SpecLife SpecSpace SpecCache FactsCalls FactsEvolve FactsItems FactsOut FactsFrame FactsSize FactsDrain FactsFate FactsLife FactsSpace FactsCache FactsSleep ReentAsk FactsDue.

(* Only a mdnsd_out that sweeps changes the time of the next sweep. *)
Lemma step_expireall : forall d e o d' x, reach d -> legal d e o -> step d e o = Ok (d', x) ->
  expireall d' = expireall d \/ now d' = e_now e /\ expireall d' = fst (e_now e) + 86400 /\ forall c, cache_holds d' c -> fst (e_now e) < a_ttl (c_rr c).
Proof.
  intros d e o d' x K L E. pose proof (reach_step _ _ _ _ _ K L E) as K'. destruct o; cbn [step] in E;
    try (left; apply on_recs_ok in E as (s & _ & -> & _); reflexivity); try (left; apply on_new_ok in E as (s & r & _ & -> & _); reflexivity); try (left; injection E as <- _; reflexivity);
    try (left; apply bind_ok in E as (s & _ & E); injection E as <- _; reflexivity);
    try (left; destruct (bytes_eqb _ _); [injection E as <- _; reflexivity|apply bind_ok in E as (s & _ & E); injection E as <- _; reflexivity]).
  - left. destruct (reach_dinv d K) as (qs & H & C). destruct L as [N Wf]. apply bind_ok in E as ([d1 n] & E1 & E). injection E as <- <-. pose proof C as (C1 & _).
    match type of E1 with mdnsd_in _ _ ?m ?from = _ => destruct (mdnsd_in_spec d e m from qs H C N Wf) as (d2 & n2 & qs2 & E2 & A & _) end. rewrite E2 in E1. injection E1 as <- <-.
    destruct A as [?|i tm|i0 tm0 d' qs'' ? ? ? ? E|i0 tm0 d' qs'' ? ? ? ? E]; [reflexivity|reflexivity| |].
    + match type of E with questions ?d1 ?ee ?from _ ?id ?qd ?an = _ => destruct (questions_sound qd d1 ee from false id an qs H ltac:(discriminate)) as (s' & i' & tm' & L' & b & qs3 & Cf & E' & _) end. rewrite E' in E. injection E as <-. reflexivity.
    + match type of E with responses ?d1 ?ee ?from _ ?an = _ => destruct (responses_sound an d1 ee from false qs H C1 N Wf ltac:(discriminate)) as (s' & q' & i' & tm' & L' & qs3 & T & Cf & E' & _) end. rewrite E' in E. injection E as <-. reflexivity.
  - apply bind_ok in E as ([[d1 m] n] & E1 & E). injection E as <- <-. destruct (out_cases d e d1 m n K L) as (qs & qs' & _ & _ & O & _); [cbn [step]; rewrite E1; reflexivity|].
    destruct O as [u us X0 added Eu EX G|N restN P restP s' Eu Sd0 E3 E2 Dp A Ua Cf Bl|N restN P restP A restA s' added all seen Eu Sd0 D Eall Nall Eseen Af Ua Tp Tb Cf Tq G|N restN A restA s' l Eu Sd0 D E3 E2 El La Af Ua Cf Tp Tb Tq|N restN A restA s' q1 q' l m ret T V Eu Sd0 D E3 E2 El La Af Ua Cf Tp Tb Tq QO Ql Sh Zq Uq CK TO G]; try (left; reflexivity).
    destruct (expireall d <? fst (e_now e)) eqn:Ex; [right|left; reflexivity]. split; [reflexivity|]. split; [reflexivity|].
    intros c Hc. apply (holds_bucket _ _ K') in Hc as (i & I). exact (G ltac:(lia) i c I).
  - left. apply bind_ok in E as ([d1 t] & E1 & E). injection E as <- <-. destruct (reach_dinv d K) as (qs & H & C). destruct (mdnsd_sleep_spec d e qs H) as (d2 & t2 & qs2 & E2 & A & _). rewrite E2 in E1. injection E1 as <- <-. destruct A; reflexivity.
Qed.

Lemma swept_since t cls frm l d : 0 <= fst t -> history (mdnsd_new t cls frm) l d -> forward l ->
  expireall d - 86400 <= fst (now d) /\ forall c, cache_holds d c -> expireall d - 86400 <= a_ttl (c_rr c).
Proof.
  intros N Hh. induction Hh as [|l d e o x d' Hh IH L E]; intros Fw.
  - split; [cbn [mdnsd_new expireall now]; unfold GC; lia|]. intros c I. apply (holds_bucket _ _ (reach_new t cls frm N)) in I as (i & I). rewrite cache_new in I. destruct I.
  - pose proof (history_reach _ _ _ (reach_new t cls frm N) Hh) as K. pose proof (reach_step _ _ _ _ _ K L E) as K'.
    destruct (IH (fun ev I => Fw ev (in_or_app _ _ _ (or_introl I)))) as [A B].
    pose proof (Fw (mkevent d e o x d') ltac:(apply in_or_app; right; left; reflexivity)) as F. cbn [ev_before ev_env] in F.
    destruct (step_expireall d e o d' x K L E) as [Ex|(Nw & Ex & Fr)].
    + rewrite Ex. split; [destruct (step_now d e o d' x K L E) as [-> | ->]; lia|]. intros c Hc. apply (holds_bucket _ _ K') in Hc as (i & I).
      destruct (step_cache d e o d' x K L E i c I) as [(c0 & I0 & R0)|(m & from & a & -> & A1 & A2 & A3 & A4 & A5 & A6 & A7)].
      * rewrite R0. apply B. apply (holds_bucket _ _ K). eauto.
      * destruct L as [_ W]. pose proof (proj1 (Forall_forall _ _) W a A2) as Wa. assert (0 <= rr_ttl a) by apply Wa. rewrite A5. lia.
    + rewrite Ex. split; [rewrite Nw; lia|]. intros c Hc. specialize (Fr c Hc). lia.
Qed.

Lemma day_at_most : forall t cls frm l d e d' m, 0 <= fst t -> history (mdnsd_new t cls frm) l d -> forward l -> fst (now d) <= fst (e_now e) -> legal d e OOut -> is_shutdown d = false ->
  step d e OOut = Ok (d', RMsg m 0) -> forall c, cache_holds d' c -> fst (e_now e) - 86400 <= a_ttl (c_rr c).
Proof.
  intros t cls frm l d e d' m N Hh Fw Fe L Sd E c Hc. pose proof (history_reach _ _ _ (reach_new t cls frm N) Hh) as K.
  destruct (Z.lt_ge_cases (expireall d) (fst (e_now e))) as [X|X].
  - pose proof (sweep_clears d e d' m K L Sd X E c Hc). lia.
  - assert (Hh' : history (mdnsd_new t cls frm) (l ++ [mkevent d e OOut (RMsg m 0) d']) d') by (econstructor; eauto).
    assert (Fw' : forward (l ++ [mkevent d e OOut (RMsg m 0) d'])).
    { intros ev I. apply in_app_or in I as [I|[<-|[]]]; [exact (Fw ev I)|exact Fe]. }
    destruct (swept_since t cls frm _ d' N Hh' Fw') as [_ B]. specialize (B c Hc).
    destruct (step_expireall d e OOut d' _ K L E) as [Ex|(_ & _ & Fr)]; [lia|]. specialize (Fr c Hc). lia.
Qed.
