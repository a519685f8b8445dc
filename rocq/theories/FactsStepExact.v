(* Supporting proofs for PropStepExact.v. *)
From Verif Require Import Base Lemmas SpecDns Hash HashProofs Wire WireSafe Rec Qry Out In Api RecInv RecSafe DaemonInv ParseWf SpecDaemon FactsCalls FactsOut FactsDrain Step SpecStep FactsStep SpecStepExact.

Lemma receive_exact : forall l d buf, reach d -> bytebuf (mkbuffer RECV_SIZE buf) -> reading l -> (forall e b from, In (e, Datagram b from) l -> b = [] \/ self_contained b) ->
  forall d' rc, receive d buf l = Ok (d', rc) -> rc = (if broken l then 1 else 0) /\ exists h, history d h d' /\ calls h = taken l /\ asleep h = None.
Proof.
  induction l as [|[e x] l IH]; intros d buf K Hb Rl Sc d' rc E; cbn [receive broken taken] in *.
  - injection E as <- <-. split; [reflexivity|]. exists []. split; [constructor|]. split; reflexivity.
  - destruct x as [b from|]; [|injection E as <- <-; split; [reflexivity|]; exists []; split; [constructor|split; reflexivity]].
    destruct (zlen b =? 0) eqn:Z0; [injection E as <- <-; split; [reflexivity|]; exists []; split; [constructor|split; reflexivity]|].
    cbv zeta in E. destruct (Rl e _ (or_introl eq_refl)) as [T Bb]. cbn in Bb. assert (Rl' : reading l) by (intros e' y I; apply Rl; right; exact I).
    assert (Sc' : forall e b from, In (e, Datagram b from) l -> b = [] \/ self_contained b) by (intros e' b' f' I; apply (Sc e' b' f'); right; exact I).
    assert (Hb' : bytebuf (mkbuffer RECV_SIZE (fill buf b))) by (eapply fill_bytes; eassumption).
    assert (S : self_contained b) by (destruct (Sc e b from (or_introl eq_refl)) as [->|S]; [discriminate Z0|exact S]).
    pose proof (fill_parse buf b S) as Fp. rewrite <- Fp.
    destruct (message_parse (mkbuffer RECV_SIZE (fill buf b)) MSG_BLOCK) as [[[m s] p]| |u|] eqn:Ep; try discriminate E.
    + destruct (in_does d e m from K T (message_parse_wf _ _ _ _ _ Hb' Ep)) as (d1 & n & E1 & D). rewrite E1 in E. cbn [bind] in E.
      destruct (IH d1 (fill buf b) (does_reach _ _ _ _ _ K D) Hb' Rl' Sc' d' rc E) as (-> & h & Hh & Ch & Ah). split; [reflexivity|]. eexists. split; [exact (history_app _ _ _ _ _ (proj1 D) Hh)|].
      split; [cbn [app calls map]; f_equal; exact Ch|]. cbn [app asleep ev_result]. exact Ah.
    + exact (IH d (fill buf b) K Hb' Rl' Sc' d' rc E).
Qed.

Lemma send_exact : forall l d, reach d -> writing l -> forall d' ps rc, process_out d l = Ok (d', ps, rc) ->
  exists h, history d h d' /\ calls h = map (fun x => (fst x, OOut)) (firstn (length h) l) /\ packets h = ps /\ asleep h = None /\ sends l h ps rc.
Proof.
  induction l as [|[e sent] l IH]; intros d K Wl d' ps rc E; cbn [process_out] in E; [discriminate|].
  destruct (out_step d e K (Wl e sent (or_introl eq_refl))) as (d1 & m & n & E1 & L & Es & D). rewrite E1 in E. cbn [bind] in E. pose proof D as (D1 & _ & D3 & D4).
  destruct (n =? 0) eqn:N0.
  - injection E as <- <- <-. eexists. split; [exact D1|]. split; [reflexivity|]. split; [exact D3|]. split; [reflexivity|]. left. split; [reflexivity|]. exists []. eexists. exists m. split; [reflexivity|]. split; [cbn [ev_result]; f_equal; lia|]. split; [reflexivity|constructor].
  - destruct (e_ovf (encode (o_calls m))); [discriminate|]. destruct sent.
    + apply bind_ok in E as ([[d2 ps2] rc2] & E2 & E). injection E as <- <- <-. destruct (IH d1 (does_reach _ _ _ _ _ K D) ltac:(intros e' s' I; apply (Wl e' s'); right; exact I) d2 ps2 rc2 E2) as (h & Hh & Ch & Ph & Ah & Sh).
      eexists. split; [exact (history_app _ _ _ _ _ D1 Hh)|]. cbn [app]. split; [cbn [calls length firstn map fst]; f_equal; exact Ch|]. split; [cbn [packets ev_result]; rewrite N0, Ph; reflexivity|]. split; [exact Ah|].
      destruct Sh as [(-> & a & la & m' & -> & Rl & Len & Fa)|(-> & Len & a & e' & Fe & Fa)].
      * left. split; [reflexivity|]. eexists (_ :: a). exists la, m'. split; [reflexivity|]. split; [exact Rl|]. split; [cbn [length]; rewrite Len; reflexivity|]. cbn [length firstn]. constructor; [reflexivity|exact Fa].
      * right. split; [reflexivity|]. split; [cbn [length]; rewrite Len; reflexivity|]. exists ((e, true) :: a), e'. cbn [length firstn]. rewrite Fe. split; [reflexivity|]. constructor; [reflexivity|exact Fa].
    + injection E as <- <- <-. eexists. split; [exact D1|]. split; [reflexivity|]. split; [exact D3|]. split; [reflexivity|]. right. split; [reflexivity|]. split; [reflexivity|]. exists [], e. split; [reflexivity|constructor].
Qed.

Lemma step_exact : forall d e inp out wt li lo d' ps t rc, reach d -> 0 <= fst (e_now e) -> reading li -> writing lo -> (forall e b from, In (e, Datagram b from) li -> b = [] \/ self_contained b) ->
  mdnsd_step d e inp out wt li lo = Ok (d', ps, t, rc) ->
  exists d1 d2 h1 h2 h3, history d h1 d1 /\ calls h1 = (if inp then taken li else []) /\
    history d1 h2 d2 /\ calls h2 = map (fun x => (fst x, OOut)) (firstn (length h2) lo) /\ packets h2 = ps /\
    (if inp && broken li then rc = 1 /\ h2 = [] else if out then sends lo h2 ps rc else rc = 0 /\ h2 = []) /\
    history d2 h3 d' /\ calls h3 = (if (rc =? 0) && wt then [(e, OSleep)] else []) ++ [(e, OEndStep)] /\ asleep h3 = t.
Proof.
  intros d e inp out wt li lo d' ps t rc K T Rl Wl Sc E. unfold mdnsd_step in E. apply bind_ok in E as ([d1 rc1] & E1 & E).
  assert (A : rc1 = (if inp && broken li then 1 else 0) /\ exists h1, history d h1 d1 /\ calls h1 = if inp then taken li else []).
  { destruct inp; [|injection E1 as <- <-; split; [reflexivity|]; exists []; split; [constructor|reflexivity]].
    destruct (receive_exact li d (fun _ => 0) K ltac:(intros o; cbn [b_at]; split; lia) Rl Sc d1 rc1 E1) as (-> & h & Hh & Ch & _). split; [reflexivity|]. exists h. auto. }
  destruct A as (-> & h1 & H1 & C1). pose proof (history_reach _ _ _ K H1) as K1. apply bind_ok in E as ([[d2 ps2] rc2] & E2 & E).
  assert (B : exists h2, history d1 h2 d2 /\ calls h2 = map (fun x => (fst x, OOut)) (firstn (length h2) lo) /\ packets h2 = ps2 /\ (if inp && broken li then rc2 = 1 /\ h2 = [] else if out then sends lo h2 ps2 rc2 else rc2 = 0 /\ h2 = [])).
  { destruct (inp && broken li); cbn [Z.eqb andb] in E2; [injection E2 as <- <- <-; exists []; split; [constructor|]; repeat split; reflexivity|].
    destruct out; [|injection E2 as <- <- <-; exists []; split; [constructor|]; repeat split; reflexivity]. destruct (send_exact lo d1 K1 Wl d2 ps2 rc2 E2) as (h & Hh & Ch & Ph & _ & Sh). exists h. auto. }
  destruct B as (h2 & H2 & C2 & P2 & S2). pose proof (history_reach _ _ _ K1 H2) as K2. apply bind_ok in E as ([d3 t3] & E3 & E). injection E as <- <- <- <-.
  exists d1, d2, h1, h2. pose proof (end_does d3 e T) as (X1 & _).
  assert (C : exists h3, history d2 h3 d3 /\ calls h3 = (if (rc2 =? 0) && wt then [(e, OSleep)] else []) /\ forall ev, asleep (h3 ++ [mkevent d3 e OEndStep RUnit ev]) = t3).
  { destruct ((rc2 =? 0) && wt); [|injection E3 as <- <-; exists []; split; [constructor|]; split; reflexivity]. destruct (sleep_does d2 e K2 T) as (d4 & t4 & E4 & D4). rewrite E4 in E3. cbn [bind] in E3. injection E3 as <- <-.
    eexists. split; [exact (proj1 D4)|]. split; reflexivity. }
  destruct C as (h3 & H3 & C3 & A3). eexists. split; [exact H1|]. split; [exact C1|]. split; [exact H2|]. split; [exact C2|]. split; [exact P2|]. split; [exact S2|]. split; [exact (history_app _ _ _ _ _ H3 X1)|].
  split; [unfold calls in *; rewrite map_app, C3; reflexivity|apply A3].
Qed.
