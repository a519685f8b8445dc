(* Supporting proofs for PropDeeds.v. *)
From Verif Require Import Base Lemmas SpecDns Lib SpecLib Hash Wire Rec Qry Out In Api DaemonInv SpecDaemon SpecLife SpecConf SpecSize FactsCalls FactsOut Step SpecStep FactsStep SpecStepExact Free Conf FactsConf Load ConfInit FactsConfInit Context SpecContext FactsContext SpecDeeds.

Lemma receive_result : forall l d buf d' rc, receive d buf l = Ok (d', rc) -> rc = if broken l then 1 else 0.
Proof.
  induction l as [|[e x] l IH]; intros d buf d' rc E; cbn [receive broken] in *; [injection E as _ <-; reflexivity|]. destruct x as [b from|]; [|injection E as _ <-; reflexivity].
  destruct (zlen b =? 0); [injection E as _ <-; reflexivity|]. cbv zeta in E. destruct (message_parse _ _) as [[[m s] p]| |u|]; try discriminate; [|exact (IH _ _ _ _ E)].
  apply bind_ok in E as ([d1 n] & _ & E). exact (IH _ _ _ _ E).
Qed.
Lemma send_result : forall l d d' ps rc, process_out d l = Ok (d', ps, rc) -> (rc = 0 <-> Forall (fun y => snd y = true) (firstn (length ps) l)).
Proof.
  induction l as [|[e sent] l IH]; intros d d' ps rc E; cbn [process_out] in E; [discriminate|]. apply bind_ok in E as ([[d1 m] n] & _ & E).
  destruct (n =? 0); [injection E as _ <- <-; split; [constructor|reflexivity]|]. destruct (e_ovf _); [discriminate|]. destruct sent.
  - apply bind_ok in E as ([[d2 ps2] rc2] & E2 & E). injection E as _ <- <-. cbn [length firstn]. rewrite (IH _ _ _ _ E2). split; [intros F; constructor; [reflexivity|exact F]|intros F; inversion F; assumption].
  - injection E as _ <- <-. cbn [length firstn]. split; [discriminate|]. intros F. inversion F as [|? ? Q _]. discriminate Q.
Qed.
Lemma step_result d e inp wt li lo d' ps t rc : mdnsd_step d e inp true wt li lo = Ok (d', ps, t, rc) -> (rc = 0 <-> (inp = true -> broken li = false) /\ Forall (fun y => snd y = true) (firstn (length ps) lo)).
Proof.
  intros E. unfold mdnsd_step in E. apply bind_ok in E as ([d1 rc1] & E1 & E). apply bind_ok in E as ([[d2 ps2] rc2] & E2 & E). apply bind_ok in E as ([d3 t3] & _ & E). injection E as _ <- _ <-. rewrite andb_true_r in E2.
  assert (A : rc1 = if inp && broken li then 1 else 0) by (destruct inp; [exact (receive_result _ _ _ _ _ E1)|injection E1 as _ <-; reflexivity]). subst rc1.
  destruct inp; cbn [andb] in E2.
  - destruct (broken li); cbn [Z.eqb] in E2.
    + injection E2 as _ <- <-. split; [discriminate|]. intros (Q & _). discriminate (Q eq_refl).
    + rewrite (send_result _ _ _ _ _ E2). split; [intros F; split; [reflexivity|exact F]|intros (_ & F); exact F].
  - cbn [Z.eqb] in E2. rewrite (send_result _ _ _ _ _ E2). split; [intros F; split; [discriminate|exact F]|intros (_ & F); exact F].
Qed.

Lemma leads_runs d d' : runs d d' -> leads d d'.
Proof. intros (h & A & B). exists h. auto. Qed.
Lemma context_leads t f : 0 <= fst t -> leads (mdnsd_new t 1 1000) (context t f).
Proof.
  intros T. apply leads_runs. set (e := mkenv t 0 None (fun _ => false)).
  assert (L : forall d o, (match o with ORegister _ | OSetFamily _ => True | _ => False end) -> legal d e o) by (intros d o Ho; split; [exact T|destruct o; try contradiction; exact Logic.I]).
  unfold context. cbv zeta. destruct f as [f|].
  - eapply runs_app; [eapply (runs_one _ e (OSetFamily f)); [apply L; exact Logic.I|reflexivity|exact Logic.I]|eapply (runs_one _ e (ORegister true)); [apply L; exact Logic.I|reflexivity|exact Logic.I]].
  - eapply (runs_one _ e (ORegister true)); [apply L; exact Logic.I|reflexivity|exact Logic.I].
Qed.
Lemma configure_leads ifname s x x' : proper_source s -> reach (v4 x) -> (forall d, v6 x = Some d -> reach d) -> configure ifname s x = Ok x' -> runs (v4 x) (v4 x') /\ paired runs (v6 x) (v6 x').
Proof.
  intros (P1 & P2 & (h & P3) & P4 & P5 & P6 & P7 & P8) K4 K6 E. unfold configure in E. apply bind_ok in E as ([[d' d6'] rc] & E & E2). injection E2 as <-. cbn [v4 v6].
  unfold conf_init in E. apply bind_ok in E as (b & Hb & E). cbv zeta in E.
  assert (Same : Ok (v4 x, v6 x, 1) = Ok (d', d6', rc) -> runs (v4 x) d' /\ paired runs (v6 x) d6').
  { intros Q. injection Q as <- <- _. split; [apply runs_none|]. unfold paired. destruct (v6 x); [apply runs_none|exact Logic.I]. }
  assert (Each : forall l, load_each (f_disk s) (f_line s) (v4 x) (v6 x) (f_env s) ifname (cstr b) 0 l = Ok (d', d6', rc) -> runs (v4 x) d' /\ paired runs (v6 x) d6').
  { intros l Q. exact (each_runs _ _ _ _ _ P7 P8 _ _ _ _ _ _ _ K4 K6 Q). }
  destruct (f_disk s (f_path s)); try (apply Same; exact E); try (eapply Each; exact E).
  apply bind_ok in E as (pat & _ & E). destruct (glob _ _ _); [eapply Each; exact E|apply Same; exact E].
Qed.
Lemma paired_leads a b : paired runs a b -> paired leads a b.
Proof. unfold paired. destruct a, b; auto. Qed.
Lemma wipe_leads d d' : reach d -> wipe d = Ok d' -> reach d' /\ forall d2, runs d' d2 -> anew d d2.
Proof.
  intros K E. set (e := mkenv (0, 0) 0 None (fun _ => false)). assert (L : legal d e OClear) by (split; [cbn; lia|exact Logic.I]).
  destruct (reach_ok d e OClear K L) as (d1 & x & E1). pose proof E1 as E'. cbn [step] in E'. apply on_recs_ok in E' as (s & Es & -> & ->). unfold wipe in E. rewrite Es in E. cbn [bind] in E. injection E as <-.
  split; [exact (reach_step d e OClear _ _ K L E1)|]. intros d2 (h & Hh & Dh). eexists. exists h. split; [|split; [exact (history_app _ _ _ _ _ (history_one d e OClear _ _ L E1) Hh)|exact Dh]]. reflexivity.
Qed.

Lemma act_acted ifname x a x' ps ok : proper_deed a -> reach (v4 x) -> (forall d, v6 x = Some d -> reach d) -> act ifname x a = Ok (x', ps, ok) -> acted x a x' ps ok.
Proof.
  intros P K4 K6 E. destruct a as [s six|s|r r6]; cbn [act proper_deed acted] in *.
  - destruct P as (P & P6). cbv zeta in E. apply bind_ok in E as (x1 & E & Q). injection Q as <- <- <-. split; [reflexivity|]. split; [reflexivity|].
    destruct (v6 x) as [d6|] eqn:E6.
    + destruct (configure_leads ifname s x x1 P K4 ltac:(rewrite E6; exact K6) E) as (A & B). rewrite E6 in B. split; [apply leads_runs; exact A|apply paired_leads; exact B].
    + destruct six as [t|].
      * destruct (configure_leads ifname s (mkcontexts (v4 x) (Some (context t (Some AF_INET6)))) x1 P K4 ltac:(cbn [v6]; intros d Q; injection Q as <-; destruct (context_leads t (Some AF_INET6) (P6 t eq_refl)) as (h & Hh & _); exact (history_reach _ _ _ (reach_new t 1 1000 (P6 t eq_refl)) Hh)) E) as (A & B). cbn [v4 v6] in A, B.
        split; [apply leads_runs; exact A|]. unfold paired in B. destruct (v6 x1) as [d|]; [|destruct B]. exists d. split; [reflexivity|].
        destruct (context_leads t (Some AF_INET6) (P6 t eq_refl)) as (h & Hh & Dh). apply leads_runs. eapply runs_app; [exists h; split; [exact Hh|exact Dh]|exact B].
      * destruct (configure_leads ifname s x x1 P K4 ltac:(rewrite E6; exact K6) E) as (A & B). rewrite E6 in B. split; [apply leads_runs; exact A|apply paired_leads; exact B].
  - apply bind_ok in E as (d & E1 & E). apply bind_ok in E as (d6 & E2 & E). apply bind_ok in E as (x1 & E3 & E). injection E as <- <- <-. split; [reflexivity|]. split; [reflexivity|].
    destruct (wipe_leads _ _ K4 E1) as (K1 & W1).
    destruct (v6 x) as [y|] eqn:E6.
    + apply bind_ok in E2 as (y1 & E2 & Q). injection Q as <-. destruct (wipe_leads _ _ (K6 y eq_refl) E2) as (K2 & W2).
      destruct (configure_leads ifname s (mkcontexts d (Some y1)) x1 P K1 ltac:(cbn [v6]; intros z Q; injection Q as <-; exact K2) E3) as (A & B). cbn [v4 v6] in A, B. split; [exact (W1 _ A)|]. unfold paired in *. destruct (v6 x1); [exact (W2 _ B)|exact B].
    + injection E2 as <-. destruct (configure_leads ifname s (mkcontexts d None) x1 P K1 ltac:(discriminate) E3) as (A & B). cbn [v4 v6] in A, B. split; [exact (W1 _ A)|exact B].
  - destruct P as ((T & Rl & Wl) & P6). apply bind_ok in E as ([[[d' ps4] t] rc] & E1 & E).
    pose proof (step_runs (v4 x) (n_env r) (n_ready r) true true (n_recv r) (n_send r) K4 T Rl Wl) as S. rewrite E1 in S. destruct S as (h & D). pose proof (step_result _ _ _ _ _ _ _ _ _ _ E1) as Rr.
    destruct (rc =? 0) eqn:R0; cbn [negb] in E.
    + assert (Ok4 : true = true <-> (n_ready r = true -> broken (n_recv r) = false) /\ Forall (fun y => snd y = true) (firstn (length ps4) (n_send r))) by (rewrite <- Rr; split; [intros _; lia|reflexivity]).
      destruct (v6 x) as [d6|] eqn:E6; [|injection E as <- <- <-; exists h, ps4, t; cbn [v4 v6]; auto]. destruct r6 as [r6|]; [|injection E as <- <- <-; exists h, ps4, t; cbn [v4 v6]; auto].
      apply bind_ok in E as ([[[d6' ps6] t6] rc6] & E2 & E). injection E as <- <- <-. exists h, ps4, t. cbn [v4 v6]. split; [exact D|]. split; [exact Ok4|].
      destruct (P6 r6 eq_refl) as (T6 & Rl6 & Wl6). pose proof (step_runs d6 (n_env r6) (n_ready r6) true true (n_recv r6) (n_send r6) (K6 d6 eq_refl) T6 Rl6 Wl6) as S6. rewrite E2 in S6. destruct S6 as (h6 & D6).
      exists d6', h6, ps6, t6. auto.
    + injection E as <- <- <-. exists h, ps4, t. cbn [v4 v6]. split; [exact D|]. split; [rewrite <- Rr; split; [discriminate|intros Z; lia]|]. destruct (v6 x), r6; auto.
Qed.
Lemma interface_acts t ifname l x ps ok : 0 <= fst t -> Forall proper_deed l -> live_on ifname (mkcontexts (context t None) None) l = Ok (x, ps, ok) -> acts (mkcontexts (context t None) None) l x ps ok.
Proof.
  intros T P. assert (L4 : lived (v4 (mkcontexts (context t None) None))) by (apply context_lived; exact T). assert (L6 : forall d, v6 (mkcontexts (context t None) None) = Some d -> lived d) by discriminate.
  revert L4 L6. generalize (mkcontexts (context t None) None). revert x ps ok. induction l as [|a l IH]; intros x' ps ok x L4 L6 E; cbn [live_on] in E; [injection E as <- <- <-; constructor|].
  inversion P as [|? ? Pa Pl]; subst. apply bind_ok in E as ([[x1 ps1] ok1] & E1 & E). pose proof (act_acted ifname x a x1 ps1 ok1 Pa (lived_reach _ L4) ltac:(intros d Q; exact (lived_reach _ (L6 d Q))) E1) as A.
  destruct ok1; [|injection E as <- <- <-; apply acts_last; exact A]. apply bind_ok in E as ([[x2 ps2] ok2] & E2 & E). injection E as <- <- <-.
  pose proof (act_runs ifname x a Pa L4 L6) as B. rewrite E1 in B. destruct B as (B4 & B6). eapply acts_more; [exact A|exact (IH Pl _ _ _ _ B4 B6 E2)].
Qed.
