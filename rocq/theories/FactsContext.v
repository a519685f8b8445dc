(* The life of an interface's contexts: every state is that of a history of calls. *)
From Verif Require Import Base Lemmas SpecDns Lib SpecLib Hash HashProofs Wire Rec Qry Out In Api RecInv RecSafe RecOps QryInv QryOps QryLoop CacheOps OutSpec DaemonInv ParseWf SpecDaemon SpecLife SpecData SpecSize FactsCalls FactsOut FactsItems FactsCache FactsFrom FactsSize FactsData FactsSized FactsDrain FactsFrame FactsFate FactsLife FactsBye Step SpecStep FactsStep Conf SpecConf FactsConf Load SpecLoad FactsLoad FactsLoad2 ConfInit SpecConfInit FactsConfInit Free SpecFree FreeProofs SpecEnd FactsEnd Context SpecContext.

Definition runs (d : daemon) (d' : daemon) : Prop := exists h, history d h d' /\ Forall daily h.

Lemma runs_none d : runs d d.
Proof. exists []. split; [constructor|constructor]. Qed.
Lemma runs_app d d1 d2 : runs d d1 -> runs d1 d2 -> runs d d2.
Proof. intros (h1 & A1 & B1) (h2 & A2 & B2). exists (h1 ++ h2). split; [exact (history_app _ _ _ _ _ A1 A2)|]. apply Forall_app. split; assumption. Qed.
Lemma runs_one d e o d' x : legal d e o -> step d e o = Ok (d', x) -> daily (mkevent d e o x d') -> runs d d'.
Proof. intros L E D. eexists. split; [exact (history_one d e o x d' L E)|]. constructor; [exact D|constructor]. Qed.
Lemma runs_reach d d' : reach d -> runs d d' -> reach d'.
Proof. intros K (h & A & _). exact (history_reach _ _ _ K A). Qed.
Lemma lived_runs d d' : lived d -> runs d d' -> lived d'.
Proof.
  intros (h & t & T & H & D) (h' & H' & D'). exists (h ++ h'), t. split; [exact T|]. split; [exact (history_app _ _ _ _ _ H H')|]. apply Forall_app. split; assumption.
Qed.
Lemma lived_reach d : lived d -> reach d.
Proof. intros (h & t & T & H & _). exact (history_reach _ _ _ (reach_new t _ _ T) H). Qed.

Lemma context_lived t f : 0 <= fst t -> lived (context t f).
Proof.
  intros T. set (e := mkenv t 0 None (fun _ => false)).
  assert (L : forall d o, (match o with ORegister _ | OSetFamily _ => True | _ => False end) -> legal d e o) by (intros d o Ho; split; [exact T|destruct o; try contradiction; exact Logic.I]).
  assert (N : lived (mdnsd_new t 1 1000)) by (exists [], t; split; [exact T|]; split; constructor).
  unfold context. cbv zeta. destruct f as [f|].
  - eapply lived_runs; [eapply lived_runs; [exact N|]|].
    + eapply (runs_one _ e (OSetFamily f)); [apply L; exact Logic.I|reflexivity|exact Logic.I].
    + eapply (runs_one _ e (ORegister true)); [apply L; exact Logic.I|reflexivity|exact Logic.I].
  - eapply lived_runs; [exact N|]. eapply (runs_one _ e (ORegister true)); [apply L; exact Logic.I|reflexivity|exact Logic.I].
Qed.

(* ---- conf_init ---- *)
Lemma record_runs d e shared host name ty ttl d' r : reach d -> 0 <= fst (e_now e) -> conf_record d e shared host name ty ttl = Ok (d', r) -> runs d d'.
Proof.
  intros K T E. unfold conf_record in E. apply bind_ok in E as (o & _ & E). apply bind_ok in E as (o' & _ & E). destruct o' as [x|]; [injection E as <- _; apply runs_none|].
  apply bind_ok in E as ([d1 x] & E1 & E).
  assert (N : exists r Y, x = RRec r /\ record d1 r Y /\ reach d1 /\ runs d d1).
  { destruct shared.
    - destruct (shared_do d e name ty ttl K T) as (d1' & r' & Y & E1' & K1 & _ & _ & R1 & _). rewrite E1' in E1. injection E1 as -> <-. exists r', Y. split; [reflexivity|]. split; [exact R1|]. split; [exact K1|].
      eapply runs_one; [|exact E1'|exact Logic.I]. split; [exact T|exact Logic.I].
    - destruct (unique_do d e name ty ttl K T) as (d1' & r' & Y & E1' & K1 & _ & _ & R1 & _). rewrite E1' in E1. injection E1 as -> <-. exists r', Y. split; [reflexivity|]. split; [exact R1|]. split; [exact K1|].
      eapply runs_one; [|exact E1'|exact Logic.I]. split; [exact T|]. discriminate. }
  destruct N as (r' & Y & -> & R1 & K1 & Rn). destruct host as [h|]; [|injection E as <- _; exact Rn].
  apply bind_ok in E as ([d2 x2] & E2 & E). injection E as <- _. eapply runs_app; [exact Rn|]. eapply runs_one; [|exact E2|exact Logic.I].
  split; [exact T|]. unfold live. unfold record in R1. congruence.
Qed.
Lemma step_runs_one d e o d' x : reach d -> legal d e o -> step d e o = Ok (d', x) -> (forall y d2, daily (mkevent d e o y d2)) -> runs d d' /\ reach d'.
Proof. intros K L E D. split; [exact (runs_one d e o d' x L E (D x d'))|exact (reach_step d e o d' x K L E)]. Qed.
Lemma load_runs d e ifname hostname s d' : reach d -> 0 <= fst (e_now e) -> sized_ifs e -> load d e ifname hostname s = Ok d' -> runs d d'.
Proof.
  intros K T Sz E. unfold load in E.
  assert (Rec : forall d0 sh host name ty ttl d1 r, reach d0 -> conf_record d0 e sh host name ty ttl = Ok (d1, r) -> runs d0 d1 /\ reach d1 /\ live d1 r).
  { intros d0 sh host name ty ttl d1 r K0 E0. split; [exact (record_runs d0 e sh host name ty ttl d1 r K0 T E0)|]. destruct (record_safe d0 e sh host name ty ttl K0 T) as (d1' & r' & E0' & K1 & L1). rewrite E0' in E0. injection E0 as -> ->. auto. }
  apply bind_ok in E as ([d1 r1] & E1 & E). destruct (Rec _ _ _ _ _ _ _ _ K E1) as (A1 & K1 & _).
  apply bind_ok in E as ([d2 r2] & E2 & E). destruct (Rec _ _ _ _ _ _ _ _ K1 E2) as (A2 & K2 & _).
  apply bind_ok in E as ([d3 r3] & E3 & E). destruct (Rec _ _ _ _ _ _ _ _ K2 E3) as (A3 & K3 & L3).
  apply bind_ok in E as ([d4 x4] & E4 & E). destruct (step_runs_one d3 e (OSetSrv r3 0 0 (s_port s mod 65536) (tgtlocal s hostname)) _ _ K3 (conj T L3) E4 ltac:(intros; exact Logic.I)) as (A4 & K4).
  apply bind_ok in E as ([d5 r5] & E5 & E). destruct (Rec _ _ _ _ _ _ _ _ K4 E5) as (A5 & K5 & _).
  apply bind_ok in E as ([d6 r6] & E6 & E). destruct (Rec _ _ _ _ _ _ _ _ K5 E6) as (A6 & K6 & _).
  apply bind_ok in E as ([d7 x7] & E7 & E). destruct (step_runs_one d6 e (OSetIfaddrs ifname) _ _ K6 (conj T Logic.I) E7 ltac:(intros; exact Sz)) as (A7 & K7).
  apply bind_ok in E as (d8 & E8 & E).
  assert (A8 : runs d7 d8 /\ reach d8).
  { destruct (s_cname s) as [c|]; [|injection E8 as <-; split; [apply runs_none|exact K7]]. apply bind_ok in E8 as ([d8' r8] & E8 & E8'). injection E8' as ->. destruct (Rec _ _ _ _ _ _ _ _ K7 E8) as (A8 & K8 & _). auto. }
  destruct A8 as (A8 & K8).
  apply bind_ok in E as ([d9 r9] & E9 & E). destruct (Rec _ _ _ _ _ _ _ _ K8 E9) as (A9 & K9 & L9).
  apply bind_ok in E as (p & _ & E). apply bind_ok in E as ([d10 x10] & E10 & E). injection E as <-. destruct (step_runs_one d9 e (OSetRaw r9 p) _ _ K9 (conj T L9) E10 ltac:(intros; exact Logic.I)) as (A10 & _).
  exact (runs_app _ _ _ A1 (runs_app _ _ _ A2 (runs_app _ _ _ A3 (runs_app _ _ _ A4 (runs_app _ _ _ A5 (runs_app _ _ _ A6 (runs_app _ _ _ A7 (runs_app _ _ _ A8 (runs_app _ _ _ A9 A10))))))))).
Qed.
Lemma path_runs fs line d e ifname hostname p d' rc : reach d -> 0 <= fst (e_now e) -> sized_ifs e -> load_path fs line d e ifname hostname p = Ok (d', rc) -> runs d d'.
Proof.
  intros K T Sz E. unfold load_path in E. destruct (contents (fs p)) as [c|]; [|injection E as <- _; apply runs_none]. apply bind_ok in E as (s & _ & E). apply bind_ok in E as (d1 & E1 & E). injection E as <- _. exact (load_runs d e ifname hostname s d1 K T Sz E1).
Qed.
Lemma each_runs fs line e ifname hostname : 0 <= fst (e_now e) -> sized_ifs e -> forall l d d6 rc d' d6' rc', reach d -> (forall x, d6 = Some x -> reach x) ->
  load_each fs line d d6 e ifname hostname rc l = Ok (d', d6', rc') -> runs d d' /\ match d6, d6' with Some x, Some x' => runs x x' | None, None => True | _, _ => False end.
Proof.
  intros T Sz. induction l as [|p l IH]; intros d d6 rc d' d6' rc' K K6 E; cbn [load_each] in E.
  - injection E as <- <- _. split; [apply runs_none|]. destruct d6; [apply runs_none|exact Logic.I].
  - apply bind_ok in E as ([[d1 d61] r1] & E1 & E). unfold load_all in E1. apply bind_ok in E1 as ([d1' rc1] & E1 & E2). pose proof (path_runs _ _ _ _ _ _ _ _ _ K T Sz E1) as A1. pose proof (runs_reach _ _ K A1) as K1. destruct d6 as [x|].
    + apply bind_ok in E2 as ([x1 rc6] & E2 & E3). injection E3 as -> <- _. pose proof (path_runs _ _ _ _ _ _ _ _ _ (K6 x eq_refl) T Sz E2) as A2. pose proof (runs_reach _ _ (K6 x eq_refl) A2) as K2.
      destruct (IH _ (Some x1) _ _ _ _ K1 ltac:(intros y Y; injection Y as <-; exact K2) E) as (B1 & B2). split; [exact (runs_app _ _ _ A1 B1)|]. destruct d6'; [exact (runs_app _ _ _ A2 B2)|exact B2].
    + injection E2 as -> <- _. destruct (IH _ None _ _ _ _ K1 ltac:(discriminate) E) as (B1 & B2). split; [exact (runs_app _ _ _ A1 B1)|exact B2].
Qed.
Lemma configure_runs ifname s x : proper_source s -> lived (v4 x) -> (forall d, v6 x = Some d -> lived d) ->
  exists x', configure ifname s x = Ok x' /\ lived (v4 x') /\ (forall d, v6 x' = Some d -> lived d).
Proof.
  intros (P1 & P2 & (h & P3) & P4 & P5 & P6 & P7 & P8) L4 L6. destruct (hostname_form _ _ _ _ P2 P3 P4) as (b & n & Hb & _).
  destruct (reads_safe (f_disk s) (f_expand s) (f_line s) (f_hostbuf s) (f_hostnm s) (f_hostid s) b (f_path s) (f_env s) ifname P1 Hb P7 (v4 x) (v6 x) P5 P6 (lived_reach _ L4) ltac:(intros y Y; exact (lived_reach _ (L6 y Y)))) as (d' & d6' & rc & E & _).
  unfold configure. rewrite E. cbn [bind]. exists (mkcontexts d' d6'). split; [reflexivity|]. cbn [v4 v6].
  unfold conf_init in E. rewrite Hb in E. cbn [bind] in E. cbv zeta in E.
  assert (Same : Ok (v4 x, v6 x, 1) = Ok (d', d6', rc) -> lived d' /\ (forall d, d6' = Some d -> lived d)) by (intros Q; injection Q as <- <- _; auto).
  assert (Each : forall l, load_each (f_disk s) (f_line s) (v4 x) (v6 x) (f_env s) ifname (cstr b) 0 l = Ok (d', d6', rc) -> lived d' /\ (forall d, d6' = Some d -> lived d)).
  { intros l Q. destruct (each_runs _ _ _ _ _ P7 P8 _ _ _ _ _ _ _ (lived_reach _ L4) ltac:(intros y Y; exact (lived_reach _ (L6 y Y))) Q) as (A & B). split; [exact (lived_runs _ _ L4 A)|].
    intros d ->. destruct (v6 x) as [y|]; [|destruct B]. exact (lived_runs _ _ (L6 y eq_refl) B). }
  destruct (f_disk s (f_path s)); try (apply Same; exact E); try (eapply Each; exact E).
  apply bind_ok in E as (pat & _ & E). destruct (glob _ _ _); [eapply Each; exact E|apply Same; exact E].
Qed.

(* ---- the deeds ---- *)
Lemma wipe_runs d : lived d -> exists d', wipe d = Ok d' /\ lived d'.
Proof.
  intros Ld. pose proof (lived_reach _ Ld) as K. set (e := mkenv (0, 0) 0 None (fun _ => false)). assert (L : legal d e OClear) by (split; [cbn; lia|exact Logic.I]).
  destruct (reach_ok d e OClear K L) as (d' & x & E). pose proof E as E'. cbn [step] in E'. apply on_recs_ok in E' as (s & E1 & -> & ->). unfold wipe. rewrite E1. cbn [bind]. eexists. split; [reflexivity|].
  eapply lived_runs; [exact Ld|]. eapply (runs_one d e OClear); [exact L|exact E|exact Logic.I].
Qed.
Lemma does_daily d d' h ps t : does d d' h ps t -> Forall daily h.
Proof. intros (_ & S & _). apply Forall_forall. intros ev I. specialize (S ev I). unfold daily. destruct (ev_call ev); try contradiction; exact Logic.I. Qed.
Lemma does_lived d d' h ps t : lived d -> does d d' h ps t -> lived d'.
Proof. intros L D. eapply lived_runs; [exact L|]. exists h. split; [exact (proj1 D)|exact (does_daily _ _ _ _ _ D)]. Qed.

Lemma round_runs d r : lived d -> proper_round r ->
  match mdnsd_step d (n_env r) (n_ready r) true true (n_recv r) (n_send r) with
  | Ok (d', ps, t, rc) => lived d'
  | UB (OobRead _) => ~ brings self_contained (n_recv r)
  | UB (OobWrite _) => exists h d', life h d' /\ overflows h
  | Hang => exists d', lived d' /\ process_out d' (n_send r) = Hang
  | _ => False
  end.
Proof.
  intros L (T & Rl & Wl). pose proof (step_runs d (n_env r) (n_ready r) true true (n_recv r) (n_send r) (lived_reach _ L) T Rl Wl) as S.
  destruct (mdnsd_step _ _ _ _ _ _ _) as [[[[d' ps] t] rc]| |[]|]; try exact S.
  - destruct S as (h & D). exact (does_lived _ _ _ _ _ L D).
  - destruct S as (d' & h' & ps & D & Ov). destruct L as (h0 & t & T0 & H0 & D0). exists (h0 ++ h'), d'. split.
    + exists t. split; [exact T0|]. split; [exact (history_app _ _ _ _ _ H0 (proj1 D))|]. apply Forall_app. split; [exact D0|exact (does_daily _ _ _ _ _ D)].
    + destruct Ov as (ev & m & n & I & Q). exists ev, m, n. split; [apply in_or_app; right; exact I|exact Q].
  - destruct S as (d0 & h0 & ps0 & D & Hg). exists d0. split; [exact (does_lived _ _ _ _ _ L D)|exact Hg].
Qed.
Lemma act_runs ifname x a : proper_deed a -> lived (v4 x) -> (forall d, v6 x = Some d -> lived d) ->
  match act ifname x a with
  | Ok (x', ps, ok) => lived (v4 x') /\ (forall d, v6 x' = Some d -> lived d)
  | UB (OobRead _) => exists r, round_of a r /\ ~ brings self_contained (n_recv r)
  | UB (OobWrite _) => exists h d', life h d' /\ overflows h
  | Hang => exists r d', round_of a r /\ lived d' /\ process_out d' (n_send r) = Hang
  | _ => False
  end.
Proof.
  intros P L4 L6. destruct a as [s six|s|r r6]; cbn [act proper_deed] in *.
  - destruct P as (P & P6). cbv zeta.
    set (x0 := match v6 x, six with None, Some t => mkcontexts (v4 x) (Some (context t (Some AF_INET6))) | _, _ => x end).
    assert (A : lived (v4 x0) /\ forall d, v6 x0 = Some d -> lived d).
    { unfold x0. destruct (v6 x) as [d6|] eqn:E6, six as [t|]; cbn [v4 v6]; try (rewrite E6); (split; [exact L4|]); try exact L6; try discriminate. intros d Q. injection Q as <-. apply context_lived. apply P6. reflexivity. }
    destruct A as (A4 & A6). destruct (configure_runs ifname s x0 P A4 A6) as (x' & E & B4 & B6). rewrite E. cbn [bind]. auto.
  - destruct (wipe_runs _ L4) as (d' & E & W4). rewrite E. cbn [bind].
    assert (A : exists d6, match v6 x with None => Ok None | Some d6 => d6 <- wipe d6;; Ok (Some d6) end = Ok d6 /\ forall d, d6 = Some d -> lived d).
    { destruct (v6 x) as [d6|]; [|exists None; split; [reflexivity|discriminate]]. destruct (wipe_runs _ (L6 d6 eq_refl)) as (d6' & E6 & W6). rewrite E6. cbn [bind]. eexists. split; [reflexivity|]. intros d Q. injection Q as <-. exact W6. }
    destruct A as (d6 & E6 & W6). rewrite E6. cbn [bind]. destruct (configure_runs ifname s (mkcontexts d' d6) P W4 W6) as (x' & E' & B4 & B6). rewrite E'. cbn [bind]. auto.
  - destruct P as (P & P6). pose proof (round_runs (v4 x) r L4 P) as A. destruct (mdnsd_step (v4 x) _ _ _ _ _ _) as [[[[d' ps] t] rc]| |[]|]; cbn [bind]; try contradiction.
    + destruct (negb (rc =? 0)); [cbn [v4 v6]; auto|]. destruct (v6 x) as [d6|] eqn:E6; [|cbn [v4 v6]; auto]. destruct r6 as [r6|]; [|cbn [v4 v6]; auto].
      pose proof (round_runs d6 r6 (L6 d6 eq_refl) (P6 r6 eq_refl)) as B. destruct (mdnsd_step d6 _ _ _ _ _ _) as [[[[d6' ps6] t6] rc6]| |[]|]; cbn [bind]; try contradiction.
      * cbn [v4 v6]. split; [exact A|]. intros d Q. injection Q as <-. exact B.
      * exists r6. split; [right; reflexivity|exact B].
      * exact B.
      * destruct B as (d0 & B). exists r6, d0. split; [right; reflexivity|exact B].
    + exists r. split; [left; reflexivity|exact A].
    + exact A.
    + destruct A as (d0 & A). exists r, d0. split; [left; reflexivity|exact A].
Qed.
Lemma lives_on ifname : forall l x, Forall proper_deed l -> lived (v4 x) -> (forall d, v6 x = Some d -> lived d) ->
  match live_on ifname x l with
  | Ok (x', ps, ok) => lived (v4 x') /\ (forall d, v6 x' = Some d -> lived d)
  | UB (OobRead _) => exists a r, In a l /\ round_of a r /\ ~ brings self_contained (n_recv r)
  | UB (OobWrite _) => exists h d', life h d' /\ overflows h
  | Hang => exists a r d', In a l /\ round_of a r /\ lived d' /\ process_out d' (n_send r) = Hang
  | _ => False
  end.
Proof.
  induction l as [|a l IH]; intros x P L4 L6; cbn [live_on]; [auto|]. inversion P as [|? ? Pa Pl]; subst. pose proof (act_runs ifname x a Pa L4 L6) as A.
  destruct (act ifname x a) as [[[x' ps] ok]| |[]|]; cbn [bind]; try contradiction.
  - destruct A as (A4 & A6). destruct ok; [|auto]. pose proof (IH x' Pl A4 A6) as B. destruct (live_on ifname x' l) as [[[x2 ps2] ok2]| |[]|]; cbn [bind]; try contradiction; try exact B.
    + destruct B as (b & r & I & B). exists b, r. split; [right; exact I|exact B].
    + destruct B as (b & r & d' & I & B). exists b, r, d'. split; [right; exact I|exact B].
  - destruct A as (r & A). exists a, r. split; [left; reflexivity|exact A].
  - exact A.
  - destruct A as (r & d' & A). exists a, r, d'. split; [left; reflexivity|exact A].
Qed.
Lemma interface_runs t ifname l : 0 <= fst t -> Forall proper_deed l ->
  match live_on ifname (mkcontexts (context t None) None) l with
  | Ok (x', ps, ok) => lived (v4 x') /\ (forall d, v6 x' = Some d -> lived d)
  | UB (OobRead _) => exists a r, In a l /\ round_of a r /\ ~ brings self_contained (n_recv r)
  | UB (OobWrite _) => exists h d', life h d' /\ overflows h
  | Hang => exists a r d', In a l /\ round_of a r /\ lived d' /\ process_out d' (n_send r) = Hang
  | _ => False
  end.
Proof. intros T P. apply lives_on; [exact P|apply context_lived; exact T|discriminate]. Qed.

(* ------------------------------------------------------------------ *)
(* The size of what is sent *)
Lemma no_query_step d e o d' x : reach d -> legal d e o -> step d e o = Ok (d', x) -> (forall h ty a, o <> OQuery h ty a) -> (forall q, qh (Q d) q = None) -> forall q, qh (Q d') q = None.
Proof.
  intros K L E No Z q. destruct (qh (Q d') q) as [y|] eqn:Ey; [|reflexivity]. exfalso.
  assert (D : o = OOut \/ o <> OOut) by (destruct o; ((left; reflexivity) || (right; discriminate))). destruct D as [->|D].
  - destruct (out_result d e d' x E) as (m & k & ->). destruct (out_cases d e d' m k K L E) as (qs & qs' & H & C & O & _).
    destruct O as [u us X0 added Eu EX G|N restN P restP s' Eu Sd0 E1 E2 Dp A Ua Cf Bl|N restN P restP A restA s' added all seen Eu Sd0 D Eall Nall Eseen Af Ua Tp Tb Cf Tq G|N restN A restA s' l Eu Sd0 D E1 E2 El La Af Ua Cf Tp Tb Tq|N restN A restA s' q1 q' l m ret T V Eu Sd0 D E1 E2 El La Af Ua Cf Tp Tb Tq QO Ql Sh Zq Uq CK TO G];
      try (cbn [Q with_R with_now] in Ey; rewrite Z in Ey; discriminate).
    cbn [Q with_expireall with_Q with_R with_now] in Ey. apply (sh_qh _ _ _ _ Sh) in Ey. unfold queries_out in QO.
    destruct (negb (checkq (Q d) =? 0) && (checkq (Q d) <=? fst (e_now e))); [destruct QO as (Q1 & _); rewrite Q1, Z in Ey; discriminate|destruct QO as (_ & _ & Q1 & _); rewrite Q1, Z in Ey; discriminate].
  - destruct (other_turn d e o d' x D K L E q y Ey) as [(y0 & E0 & _)|(cb & Eo & _)]; [rewrite Z in E0; discriminate|exact (No _ _ _ Eo)].
Qed.
Lemma daily_sized d e o x d' : reach d -> legal d e o -> step d e o = Ok (d', x) -> daily (mkevent d e o x d') -> sized_addresses d -> sized_addresses d'.
Proof.
  intros K L E Dy Sz. assert (D : (exists m from, o = OIn m from) \/ sized_call e o).
  { destruct o; cbn [daily ev_call ev_env] in Dy; try contradiction; try (right; exact I); [right; exact Dy|left; eauto]. }
  destruct D as [(m & from & ->)|Sc]; [|exact (step_sized d e o d' x K L E Sc Sz)].
  intros r Y EY. destruct (step_no_new d e (OIn m from) d' x r Y K L E ltac:(intros []) EY) as (X & EX).
  pose proof (step_given d e (OIn m from) d' x r X Y K L E EX EY) as G. unfold SpecData.given in G. cbn [ev_call] in G.
  destruct (Sz r X EX) as (A & B). destruct G as (_ & _ & _ & G4 & G5 & _). rewrite G4, G5. auto.
Qed.
Lemma life_plain : forall t h d, 0 <= fst t -> history (mdnsd_new t 1 1000) h d -> Forall daily h -> (forall q, qh (Q d) q = None) /\ sized_addresses d.
Proof.
  intros t h d T Hh. induction Hh as [|h d e o x d' Hh IH L E]; intros Dy.
  - split; [reflexivity|]. intros r X EX. discriminate.
  - apply Forall_app in Dy as (Dy & Dv). inversion Dv as [|? ? Dv' _]; subst. destruct (IH Dy) as (Z & Sz). pose proof (history_reach _ _ _ (reach_new t 1 1000 T) Hh) as K. split.
    + apply (no_query_step d e o d' x K L E); [|exact Z]. intros hh ty a ->. exact Dv'.
    + exact (daily_sized d e o x d' K L E Dv' Sz).
Qed.
Lemma no_query_list d : reach d -> (forall q, qh (Q d) q = None) -> qlist (Q d) = [].
Proof.
  intros K Z. destruct (reach_dinv d K) as (_ & _ & (C & _)). destruct (qlist (Q d)) as [|q l] eqn:E; [reflexivity|]. exfalso. apply (proj2 (qi_live _ C q)); [rewrite E; left; reflexivity|apply Z].
Qed.
Lemma no_query_asks s cb t frm cls q1 c r : qlist s = [] -> out_query s cb t frm cls [] = Ok (q1, c, r) -> c = [].
Proof.
  intros Z E. unfold out_query in E. rewrite Z in E. destruct (_ && _); [|injection E as _ <- _; reflexivity].
  cbn [query_ask bind hd_error query_loop] in E. injection E as _ <- _. reflexivity.
Qed.
Lemma records_fit h d : life h d -> (forall ev, In ev h -> roomy (ev_before ev)) -> ~ overflows h.
Proof.
  intros (t & T & Hh & Dy) Rm (ev & m & n & Iv & Er & Ov). apply in_split in Iv as (l1 & l2 & ->). destruct (history_split _ _ _ _ _ Hh) as (H1 & L & E).
  apply Forall_app in Dy as (D1 & _). destruct (life_plain t l1 _ T H1 D1) as (Z & Sz). pose proof (history_reach _ _ _ (reach_new t 1 1000 T) H1) as K.
  destruct (Rm ev ltac:(apply in_or_app; right; left; reflexivity)) as (P & Al & B). rewrite Er in E.
  assert (Eo : ev_call ev = OOut).
  { clear - E. destruct (ev_call ev); cbn [step] in E; unfold on_recs, on_new in E; try reflexivity;
      repeat match type of E with (if ?c then _ else _) = _ => destruct c end; try discriminate;
      apply bind_ok in E as (v & _ & E); repeat match type of E with (let '(_, _) := ?p in _) = _ => destruct p end; discriminate. }
  rewrite Eo in *. rewrite (no_overflow (o_calls m)) in Ov; [discriminate|].
  assert (Cv : covers (ev_before ev) P).
  { intros r W. destruct (reach_dinv _ K) as (qs & H & _). destruct W as [W|(u & Iu & <-)].
    - apply (waits_iff _ qs Probing r H) in W. destruct (hp (R (ev_before ev)) r) as [X|] eqn:EX; [apply (Al r X EX)|exfalso; exact (queue_live _ _ _ _ H W EX)].
    - destruct (hp (R (ev_before ev)) (u_r u)) as [X|] eqn:EX; [apply (Al _ X EX)|exfalso; exact (ri_ua _ _ H u Iu EX)]. }
  pose proof (state_room (ev_before ev) (ev_env ev) (ev_after ev) m n P K Sz) as S. unfold mlen. rewrite (history_frame t 1 1000 l1 _ T H1) in S. unfold query_count in S. rewrite (no_query_list _ K Z) in S.
  assert (S1 := S (ltac:(intros q1 c r Q1; rewrite (no_query_asks _ _ _ _ _ _ _ _ (no_query_list _ K Z) Q1), mlen_nil; cbn; lia)) L E Cv). change (zlen (@nil nat)) with 0 in S1. change MAX_PACKET_LEN with 65535 in *. lia.
Qed.

(* ------------------------------------------------------------------ *)
(* The end *)
Lemma ended_uni_fits d0 d order e u us d' m n : (forall r X, hp (R d0) r = Some X -> 12 + rr_len (rr X) < frame d0) -> frame d0 + 522 <= MAX_PACKET_LEN -> sized_addresses d0 ->
  ended d0 d order -> uans (R d) = u :: us -> mdnsd_out d e = Ok (d', m, n) -> e_ovf (encode (o_calls m)) = false.
Proof.
  intros Fit Fr Sz0 Ed Ua E. assert (Sz : forall r X, hp (R d) r = Some X -> sized (rr X) /\ 12 + rr_len (rr X) < frame d0).
  { intros r X EX. destruct (en_same _ _ _ (ed_r _ _ _ Ed) r X EX) as (X0 & E0 & Er & _). pose proof (Fit r X0 E0) as F. rewrite Er. split; [exact (Sz0 r X0 E0)|exact F]. }
  unfold mdnsd_out in E. rewrite (Ua : uans (R (with_now d (e_now e))) = u :: us) in E.
  change (R (with_now d (e_now e))) with (R d) in E. change (class (with_now d (e_now e))) with (class d) in E. change (frame (with_now d (e_now e))) with (frame d) in E. rewrite (ed_frame _ _ _ Ed) in E.
  destruct (hp (R d) (u_r u)) as [X|] eqn:EX; [|exfalso; apply (en_ua _ _ _ (ed_r _ _ _ Ed) u); [rewrite Ua; left; reflexivity|exact EX]].
  unfold out_unicast in E. cbn [set_uans hp] in E. rewrite (hget_some _ _ _ EX) in E. cbn [bind] in E. cbv zeta in E. set (s' := set_hp (set_uans (R d) us) (hset (hp (R d)) (u_r u) (set_sent X (e_now e)))) in *.
  assert (P : pok s') by (eapply pok_like; [exact (en_pok _ _ _ (ed_r _ _ _ Ed))|reflexivity|]; intros x; cbn [s' set_hp hp]; destruct (Nat.eq_dec x (u_r u)) as [->|D]; [rewrite hset_same, EX; reflexivity|rewrite hset_other by exact D; destruct (hp (R d) x); [reflexivity|exact I]]).
  destruct (OutExtra.additional_spec s' (frame d0) (class d) (OutExtra.uni_calls (class d) X) (u_r u) [u_r u] (set_sent X (e_now e)) P (hset_same _ _ _)) as (m' & seen' & added & Ea & (Gm & _ & G)).
  fold (OutExtra.uni_calls (class d) X) in E. rewrite Ea in E. cbn [bind] in E. injection E as _ <- _. cbn [o_calls]. subst m'. apply no_overflow.
  assert (B : mcalls_size (OutExtra.uni_calls (class d) X) <= frame d0 + 510).
  { destruct (Sz (u_r u) X EX) as (S1 & S2). pose proof (record_size SAn (a_name (rr X)) (a_type (rr X)) (class d) (a_ttl (rr X)) (rr X) S1) as B. unfold OutExtra.uni_calls. match goal with |- mcalls_size (?a :: ?b) <= _ => change (a :: b) with ([a] ++ b) end. rewrite mcalls_size_app. unfold mcalls_size at 1. cbn [map fold_right mcall_size]. lia. }
  pose proof (mlen_upper (OutExtra.uni_calls (class d) X)) as U.
  destruct (exists_last_or_nil added) as [->|(a & x & ->)]; [cbn [OutExtra.extras flat_map]; rewrite app_nil_r; lia|].
  destruct (G a x [] eq_refl) as (Y & EY & _ & _ & B3). rewrite OutExtra.extras_app, app_assoc. pose proof (mlen_app (OutExtra.uni_calls (class d) X ++ OutExtra.extras (class d) (hp s') a) (OutExtra.extras (class d) (hp s') [x])) as A.
  assert (SY : sized (rr Y)). { cbn [s' set_hp hp] in EY. destruct (Nat.eq_dec x (u_r u)) as [->|D]; [rewrite hset_same in EY; injection EY as <-; exact (proj1 (Sz _ X EX))|rewrite hset_other in EY by exact D; exact (proj1 (Sz _ Y EY))]. }
  assert (B4 : mcalls_size (OutExtra.extras (class d) (hp s') [x]) <= rr_len (rr Y) + 262); [|lia]. unfold OutExtra.extras, OutSafe.at_rec. cbn [flat_map]. rewrite EY, app_nil_r. apply record_size. exact SY.
Qed.
Lemma close_runs d0 : (forall r X, hp (R d0) r = Some X -> 12 + rr_len (rr X) < frame d0) -> frame d0 + 522 <= MAX_PACKET_LEN -> sized_addresses d0 ->
  forall lo d order, ended d0 d order -> writing lo -> (forall x, In x lo -> snd x = true) -> (a_publish (R d0) = None \/ forall e, In e (map fst lo) -> micros (e_now e) < micros (t_publish (R d0))) ->
  (length (uans (R d)) + length order < length lo)%nat ->
  exists d' ps h, process_out d lo = Ok (d', ps, 0) /\ does d d' h ps None /\ ended d0 d' [] /\ concat (map goodbyes h) = map (farewell (class d0)) (with_recs (hp (R d0)) order).
Proof.
  intros Fit Fr Sz0. induction lo as [|[e sent] lo IH]; intros d order Ed Wl Sn Qt Len; [cbn [length] in Len; lia|]. cbn [process_out].
  destruct (Wl e sent (or_introl eq_refl)) as (T & Cb). assert (L : legal d e OOut) by (split; [exact T|left; exact Cb]). pose proof (Sn (e, sent) (or_introl eq_refl)) as Se. cbn [snd] in Se. subst sent.
  destruct (uans (R d)) as [|u us] eqn:Eu; cycle 1.
  { destruct (ended_uni d0 d order e u us Ed Eu) as (d' & m & E & Ed' & Eu'). assert (Es : step d e OOut = Ok (d', RMsg m 1)) by (cbn [step]; rewrite E; reflexivity).
    assert (D : does d d' [mkevent d e OOut (RMsg m 1) d'] [packet_of m] None).
    { split; [apply history_one; assumption|]. split; [intros ev [<-|[]]; exact I|]. split; reflexivity. }
    rewrite E. cbn [bind]. change (1 =? 0) with false. cbv iota. rewrite (ended_uni_fits d0 d order e u us d' m 1 Fit Fr Sz0 Ed Eu E).
    destruct (IH d' order Ed' (fun e' s' I => Wl e' s' (or_intror I)) (fun y I => Sn y (or_intror I))) as (d2 & ps & h & E2 & D2 & Ed2 & Gs).
    { destruct Qt as [Qt|Qt]; [left; exact Qt|right; intros e' I; apply Qt; right; exact I]. }
    { rewrite Eu'. cbn [length] in Len. lia. }
    rewrite E2. cbn [bind]. exists d2, (packet_of m :: ps), (mkevent d e OOut (RMsg m 1) d' :: h). split; [reflexivity|]. split; [exact (does_app _ _ _ _ _ _ _ _ D D2)|]. split; [exact Ed2|].
    cbn [map concat]. rewrite Gs. unfold goodbyes at 1. cbn [ev_result ev_before]. rewrite Eu. reflexivity. }
  destruct (ended_out d0 d order e Ed Eu) as (d' & m & N & rest & E & Eo & Ed' & Ea & Qr & Eu' & Ne); [destruct Qt as [Qt|Qt]; [left; exact Qt|right; apply Qt; left; reflexivity]|]. specialize (Ne Fit).
  assert (Es : step d e OOut = Ok (d', RMsg m (zlen N))) by (cbn [step]; rewrite E; reflexivity).
  assert (D : does d d' [mkevent d e OOut (RMsg m (zlen N)) d'] (if zlen N =? 0 then [] else [packet_of m]) None).
  { split; [apply history_one; assumption|]. split; [intros ev [<-|[]]; exact I|]. split; [cbn [packets ev_result]; destruct (zlen N =? 0); reflexivity|reflexivity]. }
  rewrite E. cbn [bind].
  assert (Gb : goodbyes (mkevent d e OOut (RMsg m (zlen N)) d') = map (farewell (class d0)) (with_recs (hp (R d0)) N)) by (unfold goodbyes; cbn [ev_result ev_before]; rewrite Eu; exact Ea).
  destruct (zlen N =? 0) eqn:N0.
  - assert (N = []) by (destruct N; [reflexivity|rewrite zlen_cons in N0; pose proof (zlen_nonneg _ N); lia]). subst N. destruct order as [|o order]; [|exfalso; apply Ne; [discriminate|reflexivity]].
    cbn [app] in Eo. subst rest. exists d', [], [mkevent d e OOut (RMsg m (zlen (@nil nat))) d']. split; [reflexivity|]. split; [exact D|]. split; [exact Ed'|]. cbn [map concat]. rewrite Gb. reflexivity.
  - assert (Ov : e_ovf (encode (o_calls m)) = false).
    { assert (Sz : sized_addresses d). { intros r X EX. destruct (en_same _ _ _ (ed_r _ _ _ Ed) r X EX) as (X0 & E0 & Er & _). rewrite Er. exact (Sz0 r X0 E0). }
      apply (response_fits d e d' m (zlen N) Eu Sz); [rewrite (ed_frame _ _ _ Ed); lia|exact Es|exact Qr]. }
    rewrite Ov. assert (LN : (0 < length N)%nat) by (destruct N; [discriminate N0|cbn [length]; lia]).
    destruct (IH d' rest Ed' (fun e' s' I => Wl e' s' (or_intror I)) (fun y I => Sn y (or_intror I))) as (d2 & ps & h & E2 & D2 & Ed2 & Gs).
    { destruct Qt as [Qt|Qt]; [left; exact Qt|right; intros e' I; apply Qt; right; exact I]. }
    { rewrite Eu'. rewrite Eo, app_length in Len. cbn [length] in Len. cbn [length]. lia. }
    rewrite E2. cbn [bind]. exists d2, (packet_of m :: ps), (mkevent d e OOut (RMsg m (zlen N)) d' :: h). split; [reflexivity|]. split; [exact (does_app _ _ _ _ _ _ _ _ D D2)|]. split; [exact Ed2|].
    cbn [map concat]. rewrite Gb, Gs, Eo, with_recs_app, map_app. reflexivity.
Qed.
Lemma retires d e lo L : lived d -> quiet_for d (map fst lo) -> disco d = false -> (forall r X, record d r X -> 12 + rr_len (rr X) < 1000) ->
  (forall r X, record d r X -> In r L) -> writing lo -> (forall x, In x lo -> snd x = true) -> (length (uans (R d)) + length L < length lo)%nat ->
  exists ps bl d1 h d2 G, retire d e lo = Ok (ps, bl) /\ step d e OShutdown = Ok (d1, RUnit) /\ does d1 d2 h ps None /\
    NoDup (map fst G) /\ (forall r X, In (r, X) G <-> record d r X) /\ concat (map goodbyes h) = map (farewell (class d)) G /\
    (forall r, SpecLife.gone d2 r) /\ NoDup bl /\ forall b, In b bl <-> allocated d2 b.
Proof.
  intros (hl & t & T & Hh & Dy) Qt Dc Fit Al Wl Sn Len. pose proof (history_reach _ _ _ (reach_new t 1 1000 T) Hh) as K. destruct (life_plain t hl d T Hh Dy) as (_ & Sz).
  pose proof (history_frame t 1 1000 hl d T Hh) as Fr. destruct (shut_ended d e K Dc) as (d1 & E & Ed & Ua). pose proof E as E1. cbn [step] in E1. apply bind_ok in E1 as (s & Es & E1). injection E1 as <-.
  set (order := rev (concat (pub (R d)))) in *.
  destruct (reach_dinv d K) as (qs & H & (C & _)). assert (Lo : forall r, In r order <-> hp (R d) r <> None) by (intros r; unfold order; rewrite <- in_rev; symmetry; apply (pk_live _ (ri_p _ _ H))).
  assert (Nd : NoDup order) by (apply NoDup_rev, (pk_nodup _ (ri_p _ _ H))).
  assert (Ll : (length order <= length L)%nat). { apply NoDup_incl_length; [exact Nd|]. intros r Ir. apply Lo in Ir. destruct (hp (R d) r) as [X|] eqn:EX; [exact (Al r X EX)|contradiction]. }
  destruct (close_runs d ltac:(intros r X EX; rewrite Fr; exact (Fit r X EX)) ltac:(rewrite Fr; change MAX_PACKET_LEN with 65535; lia) Sz lo _ order Ed) as (d2 & ps & h & Ep & D & Ed2 & Gb); try assumption; try lia.
  { destruct Qt as [Qt|Qt]; [left; exact (unlisted d K Qt)|right; exact Qt]. }
  { cbn [R with_shutdown] in Ua |- *. rewrite Ua. lia. }
  destruct (freed_tables (with_disco d2 false) (en_pok _ _ _ (ed_r _ _ _ Ed2))) as (bl & Ef & Nb & Ib); [cbn [Q with_disco]; rewrite (ed_q _ _ _ Ed2); exact C|].
  exists ps, bl, (with_shutdown (with_R d s)), h, d2, (with_recs (hp (R d)) order). split.
  { unfold retire. rewrite Es. cbn [bind]. unfold mdnsd_step. cbn [bind]. change (0 =? 0) with true. cbn [andb]. rewrite Ep. cbn [bind]. change (0 =? 0) with true. cbn [andb bind]. rewrite Ef. reflexivity. }
  split; [exact E|]. split; [exact D|]. split; [rewrite with_recs_fst; [exact Nd|intros r Ir; apply Lo; exact Ir]|]. split.
  { intros r X. rewrite with_recs_in. split; [intros [_ EX]; exact EX|]. intros EX. split; [|exact EX]. apply Lo. unfold record in EX. congruence. }
  split; [exact Gb|]. split; [|split; [exact Nb|exact Ib]]. intros r. exact (ended_gone d d2 r Ed2).
Qed.

(* ------------------------------------------------------------------ *)
(* For the cases *)
Lemma listed d (f : mrec -> bool) : reach d -> forallb (fun r => match hp (R d) r with Some X => f X | None => true end) (concat (pub (R d))) = true -> forall r X, record d r X -> In r (concat (pub (R d))) /\ f X = true.
Proof.
  intros K B r X EX. destruct (reach_dinv d K) as (qs & H & _). rewrite forallb_forall in B. assert (I : In r (concat (pub (R d)))) by (apply (pk_live _ (ri_p _ _ H)); unfold record in EX; congruence).
  split; [exact I|]. specialize (B r I). unfold record in EX. rewrite EX in B. exact B.
Qed.
Definition roomyb (d : daemon) : bool := 12 + room_for d (concat (pub (R d))) <=? MAX_PACKET_LEN.
Lemma roomyb_ok d : reach d -> roomyb d = true -> roomy d.
Proof. intros K B. exists (concat (pub (R d))). split; [|apply Z.leb_le; exact B]. intros r X EX. exact (proj1 (listed d (fun _ => true) K ltac:(apply forallb_forall; intros y _; destruct (hp (R d) y); reflexivity) r X EX)). Qed.
Definition dailyb (o : op) : bool :=
  match o with OShared _ _ _ | OUnique _ _ _ (Some _) | OSetRaw _ _ | OSetHost _ _ | OSetSrv _ _ _ _ _ | OSetFamily _ | ORegister _ | OClear | OIn _ _ | OOut | OSleep | OEndStep => true | _ => false end.
Lemma dailyb_ok ev : dailyb (ev_call ev) = true -> daily ev.
Proof. unfold dailyb, daily. destruct (ev_call ev); try discriminate; try (intros _; exact I). destruct cb; [intros _; exact I|discriminate]. Qed.
Lemma on_disk l p c : disk_of l p = File c -> In (File c) (map snd l).
Proof.
  assert (A : forall q, at_path l q = File c -> In (File c) (map snd l)).
  { intros q. induction l as [|[k n] l IH]; cbn [at_path map snd]; [discriminate|]. destruct (bytes_eqb q k); [intros ->; left; reflexivity|intros E; right; exact (IH E)]. }
  unfold disk_of. destruct p as [|z p]; [discriminate|]. destruct (at_path l (trim (z :: p))) eqn:E; try (destruct (bytes_eqb _ _)); try discriminate. intros Q. injection Q as <-. exact (A _ E).
Qed.
Lemma bytesb_ok l : forallb (fun b => (0 <=? b) && (b <? 256)) l = true -> bytes l.
Proof. intros B. rewrite forallb_forall in B. apply Forall_forall. intros b I. specialize (B b I). unfold is_byte. lia. Qed.
