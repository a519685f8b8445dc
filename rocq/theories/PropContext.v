(* C120: what mdnsd does with the contexts of an interface.  Vocabulary: Context.v,
   SpecContext.v. *)
From Coq Require Import String.
From Verif Require FactsLife FactsOut.
From Verif Require Import Base SpecLib SpecDns Hash Wire Rec Qry Out In Api DaemonInv SpecDaemon SpecLife SpecAddr SpecSize Lib Conf Load SpecConf SpecLoad FactsLoad ConfInit SpecConfInit Scenario FactsConfInit PropConf PropLoad PropConfInit Step Free SpecFree SpecStep SpecEnd Context SpecContext FactsContext.
Open Scope list_scope.

(* Whatever mdnsd does for an interface, in whatever order: set it up, read its
   configuration anew, serve it, with whatever the sockets give.  Both contexts are
   always in states that the calls of C17 lead to, unless a datagram that is not
   self-contained is received, a packet overflows, or mdnsd_out does not come to an
   end while the clock runs. *)
Theorem C120_runs_partial : forall t ifname l, 0 <= fst t -> Forall proper_deed l ->
  match live_on ifname (mkcontexts (context t None) None) l with
  | Ok (x', ps, ok) => lived (v4 x') /\ (forall d, v6 x' = Some d -> lived d)
  | UB (OobRead _) => exists a r, In a l /\ round_of a r /\ ~ brings self_contained (n_recv r)
  | UB (OobWrite _) => exists h d', life h d' /\ overflows h
  | Hang => exists a r d', In a l /\ round_of a r /\ lived d' /\ process_out d' (n_send r) = Hang
  | _ => False
  end.
Proof. exact interface_runs. Qed.
Print Assumptions C120_runs_partial.

(* No packet overflows as long as the records fit the largest one. *)
Theorem C120_room_partial : forall h d, life h d -> (forall ev, In ev h -> roomy (ev_before ev)) -> ~ overflows h.
Proof. exact records_fit. Qed.
Print Assumptions C120_room_partial.

(* The end of a context: when every record fits a message, and nothing is being
   announced or the next announcement is not due yet, the replies still waiting for
   single hosts are sent, then goodbyes for exactly its records, and all memory is freed,
   each block once.  Missing: contexts with an announcement due (C120_refuted_end). *)
Theorem C120_end_partial : forall d e lo L, lived d -> quiet_for d (map fst lo) -> disco d = false -> (forall r X, record d r X -> 12 + rr_len (rr X) < 1000) ->
  (forall r X, record d r X -> In r L) -> writing lo -> (forall x, In x lo -> snd x = true) -> (List.length (uans (R d)) + List.length L < List.length lo)%nat ->
  exists ps bl d1 h d2 G, retire d e lo = Ok (ps, bl) /\ step d e OShutdown = Ok (d1, RUnit) /\ does d1 d2 h ps None /\
    NoDup (map fst G) /\ (forall r X, In (r, X) G <-> record d r X) /\ List.concat (map goodbyes h) = map (farewell (class d)) G /\
    (forall r, SpecLife.gone d2 r) /\ NoDup bl /\ forall b, In b bl <-> allocated d2 b.
Proof. exact retires. Qed.
Print Assumptions C120_end_partial.

(* Three services; the texts of two fill a message each. *)
Definition letters (c : Z) : node :=
  File (text [ascii_text "type _" ++ [c] ++ ascii_text "._tcp"; ascii_text "name A" ++ [c]; ascii_text "port 80"; ascii_text "txt a=" ++ repeat c 240; ascii_text "txt b=" ++ repeat c 240] []).
Definition three_files : list (list Z * node) :=
  [(ascii_text "/etc/m", listing ["a.service"; "b.service"; "c.service"]%string);
   (ascii_text "/etc/m/a.service", page ["type _a._tcp"; "name Aa"; "port 80"; "txt path=a"]%string);
   (ascii_text "/etc/m/b.service", letters 100); (ascii_text "/etc/m/c.service", letters 101)].
Definition three : disk := disk_of three_files.
Definition here (fs : disk) : source := mksource fs no_expand junk blank (gate ++ [0]) 1 (ascii_text "/etc/m") when.
Definition sends (t : Z) : list (env * bool) := repeat (at_ (t, 0), true) 40.
Definition calm_round (t : Z) : round := mkround (at_ (t, 0)) false [] (sends t).
Definition serve (t : Z) : deed := Serve (calm_round t) None.
Definition lives (l : list deed) : res contexts := '(x, _, _) <- live_on eth0 (mkcontexts (context (1, 0) None) None) l;; Ok x.

Lemma sends_writing t : 0 <= t -> writing (sends t).
Proof. intros T e s I. apply repeat_spec in I. injection I as -> ->. split; [exact T|reflexivity]. Qed.
Lemma serve_proper t : 0 <= t -> proper_deed (serve t).
Proof. intros T. split; [|discriminate]. split; [exact T|]. split; [intros e x []|apply sends_writing; exact T]. Qed.
Lemma here_proper l : (forall c, In (File c) (map snd l) -> exists lines last, c = text lines last /\ Forall (fun l => ~ In 10 l /\ zlen l mod 255 <> 0) lines /\ ~ In 10 last) -> proper_source (here (disk_of l)).
Proof.
  intros T. split; [reflexivity|]. split; [reflexivity|]. split; [exists gate; split; [vm_compute; intuition discriminate|exists []; reflexivity]|]. split; [vm_compute; reflexivity|]. split; [reflexivity|]. split; [|split].
  - intros p c E. apply T. exact (on_disk l p c E).
  - vm_compute. discriminate.
  - intros ifl i E I. injection E as <-. cbn [f_env here when e_ifs] in I. repeat (destruct I as [<-|I]; [split; intros Q; vm_compute in Q; try discriminate; reflexivity|]). destruct I.
Qed.
Lemma three_proper : proper_source (here three).
Proof.
  apply here_proper. intros c F.
  cbn [three_files map snd] in F. repeat (destruct F as [F|F]; [try discriminate F; unfold page, letters in F; injection F as <-; eexists; eexists; (split; [reflexivity|]); (split; [|intros []]); repeat (constructor; [split; [vm_compute; intuition discriminate|vm_compute; discriminate]|]); constructor|]). destruct F.
Qed.
Definition announcing : list deed := [Setup (here three) None; serve 1; serve 2; serve 3; serve 4].
(* The end comes while the records are being announced: a record that was freed is
   used. *)
Theorem C120_refuted_end : ~ (forall ifname t l x ps ok e lo, 0 <= fst t -> Forall proper_deed l -> live_on ifname (mkcontexts (context t None) None) l = Ok (x, ps, ok) -> 0 <= fst (e_now e) -> writing lo ->
  retire (v4 x) e lo <> UB UseAfterFree).
Proof.
  intros C. assert (P : Forall proper_deed announcing) by (unfold announcing; constructor; [split; [exact three_proper|discriminate]|]; repeat (constructor; [apply serve_proper; lia|]); constructor).
  specialize (C eth0 (1, 0) announcing).
  assert (B : match live_on eth0 (mkcontexts (context (1, 0) None) None) announcing with Ok (x, _, _) => match retire (v4 x) (at_ (5, 0)) (sends 5) with UB UseAfterFree => true | _ => false end | _ => false end = true) by (vm_compute; reflexivity).
  destruct (live_on eth0 (mkcontexts (context (1, 0) None) None) announcing) as [[[x ps] ok]| | |]; try discriminate B.
  apply (C x ps ok (at_ (5, 0)) (sends 5)); [discriminate|exact P|reflexivity|discriminate|apply sends_writing; lia|]. destruct (retire (v4 x) (at_ (5, 0)) (sends 5)) as [?| |[]|]; try discriminate B. reflexivity.
Qed.
Print Assumptions C120_refuted_end.

(* One service, whose records are being announced, with one announcement left: the
   goodbyes take one packet. *)
Definition one_file : list (list Z * node) :=
  [(ascii_text "/etc/m", listing ["a.service"]%string); (ascii_text "/etc/m/a.service", page ["type _a._tcp"; "name Aa"; "port 80"; "txt path=a"]%string)].
Definition announced : list deed := Setup (here (disk_of one_file)) None :: map serve [1; 2; 3; 4; 5].
Lemma announced_proper : Forall proper_deed announced.
Proof.
  unfold announced. cbn [map]. constructor; [split; [|discriminate]|repeat (constructor; [apply serve_proper; lia|]); constructor].
  apply here_proper. intros c F. cbn [one_file map snd] in F. destruct F as [F|[F|[]]]; [discriminate F|]. unfold page in F. injection F as <-. eexists. eexists. split; [reflexivity|]. split; [|intros []].
  repeat (constructor; [split; [vm_compute; intuition discriminate|vm_compute; discriminate]|]). constructor.
Qed.
Example C120_case_end : exists x ps ok, Forall proper_deed announced /\ live_on eth0 (mkcontexts (context (1, 0) None) None) announced = Ok (x, ps, ok) /\ lived (v4 x) /\
  quiet_for (v4 x) (map fst (sends 6)) /\ a_publish (R (v4 x)) <> None /\ disco (v4 x) = false /\ uans (R (v4 x)) = [] /\ (forall r X, record (v4 x) r X -> In r (List.concat (pub (R (v4 x)))) /\ 12 + rr_len (rr X) < 1000) /\
  List.length (List.concat (pub (R (v4 x)))) = 7%nat /\ match retire (v4 x) (at_ (6, 0)) (sends 6) with Ok (ps, bl) => List.length ps = 1%nat | _ => False end.
Proof.
  assert (B : match live_on eth0 (mkcontexts (context (1, 0) None) None) announced with
    | Ok (x, _, _) => (((micros (6, 0) <? micros (t_publish (R (v4 x)))) && match a_publish (R (v4 x)) with Some _ => negb (disco (v4 x)) | _ => false end &&
        match uans (R (v4 x)) with [] => true | _ => false end) && (forallb (fun r => match hp (R (v4 x)) r with Some X => 12 + rr_len (rr X) <? 1000 | None => true end) (List.concat (pub (R (v4 x)))) &&
        (Nat.eqb (List.length (List.concat (pub (R (v4 x))))) 7 && match retire (v4 x) (at_ (6, 0)) (sends 6) with Ok (ps, bl) => Nat.eqb (List.length ps) 1 | _ => false end)))%bool
    | _ => false end = true) by (vm_compute; reflexivity).
  pose proof (interface_runs (1, 0) eth0 announced ltac:(discriminate) announced_proper) as Lv.
  destruct (live_on eth0 (mkcontexts (context (1, 0) None) None) announced) as [[[x ps] ok]| | |]; try discriminate B. destruct Lv as (Lv & _).
  apply andb_prop in B as (B1 & B2). apply andb_prop in B1 as (B1 & B3). apply andb_prop in B1 as (B0 & B1). apply andb_prop in B2 as (B4 & B5). apply andb_prop in B5 as (B5 & B6).
  exists x, ps, ok. split; [exact announced_proper|]. split; [reflexivity|]. split; [exact Lv|].
  split; [right; intros e I; apply in_map_iff in I as (y & <- & I); apply repeat_spec in I; subst y; cbn [fst at_ e_now]; apply Z.ltb_lt; exact B0|].
  split; [destruct (a_publish (R (v4 x))); [discriminate|discriminate B1]|].
  split; [destruct (a_publish (R (v4 x))), (disco (v4 x)); try discriminate B1; reflexivity|].
  split; [destruct (uans (R (v4 x))); [reflexivity|discriminate B3]|].
  split. { destruct Lv as (h & tt & T & Hh & _). intros r X EX. destruct (listed (v4 x) (fun X => 12 + rr_len (rr X) <? 1000) (FactsOut.history_reach _ _ _ (reach_new tt 1 1000 T) Hh) B4 r X EX) as (I & F). split; [exact I|apply Z.ltb_lt; exact F]. }
  split; [apply Nat.eqb_eq; exact B5|]. destruct (retire (v4 x) (at_ (6, 0)) (sends 6)) as [[p bl]| | |]; try discriminate B6. apply Nat.eqb_eq. exact B6.
Qed.

(* Once they are announced, two hosts ask for a record, and sending the first reply
   fails: the other reply and the goodbyes take one packet each. *)
Definition asks_text : list Z := snd (packet_of (mkomsg peer 0 false [MQd (ascii_text "Aa._a._tcp.local.") QTYPE_TXT 1])).
Definition failing : deed :=
  Serve (mkround (at_ (20, 0)) true [(at_ (20, 0), Datagram asks_text stranger); (at_ (20, 0), Datagram asks_text stranger); (at_ (20, 0), Datagram [] peer)] [(at_ (20, 0), false)]) None.
Definition waiting : list deed := Setup (here (disk_of one_file)) None :: map serve [1; 2; 3; 5; 7; 9; 11; 13] ++ [failing].
Lemma waiting_proper : Forall proper_deed waiting.
Proof.
  unfold waiting. cbn [map app]. constructor; [split; [|discriminate]|do 8 (constructor; [apply serve_proper; lia|]); constructor; [|constructor]].
  - apply here_proper. intros c F. cbn [one_file map snd] in F. destruct F as [F|[F|[]]]; [discriminate F|]. unfold page in F. injection F as <-. eexists. eexists. split; [reflexivity|]. split; [|intros []].
  repeat (constructor; [split; [vm_compute; intuition discriminate|vm_compute; discriminate]|]). constructor.
  - split; [|discriminate]. split; [vm_compute; discriminate|]. split; [|intros e b [Q|[]]; injection Q as <- <-; split; [vm_compute; discriminate|reflexivity]].
    intros e x [Q|[Q|[Q|[]]]]; injection Q as <- <-; (split; [vm_compute; discriminate|]); [| |constructor]; apply bytesb_ok; vm_compute; reflexivity.
Qed.
Example C120_case_waiting : exists x ps ok, Forall proper_deed waiting /\ live_on eth0 (mkcontexts (context (1, 0) None) None) waiting = Ok (x, ps, ok) /\ lived (v4 x) /\
  quiet_for (v4 x) (map fst (sends 20)) /\ disco (v4 x) = false /\ List.length (uans (R (v4 x))) = 1%nat /\ (forall r X, record (v4 x) r X -> In r (List.concat (pub (R (v4 x)))) /\ 12 + rr_len (rr X) < 1000) /\
  List.length (List.concat (pub (R (v4 x)))) = 7%nat /\ match retire (v4 x) (at_ (20, 0)) (sends 20) with Ok (ps, bl) => List.length ps = 2%nat | _ => False end.
Proof.
  assert (B : match live_on eth0 (mkcontexts (context (1, 0) None) None) waiting with
    | Ok (x, _, _) => ((match a_publish (R (v4 x)) with None => true | _ => false end && negb (disco (v4 x)) &&
        Nat.eqb (List.length (uans (R (v4 x)))) 1) && (forallb (fun r => match hp (R (v4 x)) r with Some X => 12 + rr_len (rr X) <? 1000 | None => true end) (List.concat (pub (R (v4 x)))) &&
        (Nat.eqb (List.length (List.concat (pub (R (v4 x))))) 7 && match retire (v4 x) (at_ (20, 0)) (sends 20) with Ok (ps, bl) => Nat.eqb (List.length ps) 2 | _ => false end)))%bool
    | _ => false end = true) by (vm_compute; reflexivity).
  pose proof (interface_runs (1, 0) eth0 waiting ltac:(discriminate) waiting_proper) as Lv.
  destruct (live_on eth0 (mkcontexts (context (1, 0) None) None) waiting) as [[[x ps] ok]| | |]; try discriminate B. destruct Lv as (Lv & _).
  apply andb_prop in B as (B1 & B2). apply andb_prop in B1 as (B1 & B3). apply andb_prop in B1 as (B0 & B1). apply andb_prop in B2 as (B4 & B5). apply andb_prop in B5 as (B5 & B6).
  exists x, ps, ok. split; [exact waiting_proper|]. split; [reflexivity|]. split; [exact Lv|].
  split. { left. intros r (l & Kl & Il). unfold queue_is in Kl. cbn [head] in Kl. destruct (a_publish (R (v4 x))); [discriminate B0|]. inversion Kl; subst. destruct Il. }
  split; [destruct (disco (v4 x)); [discriminate B1|reflexivity]|].
  split; [apply Nat.eqb_eq; exact B3|].
  split. { destruct Lv as (h & tt & T & Hh & _). intros r X EX. destruct (listed (v4 x) (fun X => 12 + rr_len (rr X) <? 1000) (FactsOut.history_reach _ _ _ (reach_new tt 1 1000 T) Hh) B4 r X EX) as (I & F). split; [exact I|apply Z.ltb_lt; exact F]. }
  split; [apply Nat.eqb_eq; exact B5|]. destruct (retire (v4 x) (at_ (20, 0)) (sends 20)) as [[p bl]| | |]; try discriminate B6. apply Nat.eqb_eq. exact B6.
Qed.

(* Both contexts; a query is received, the configuration is read anew, and the IPv4
   socket goes *)
Definition both : list deed :=
  Setup (here three) (Some (1, 0)) :: map (fun t => Serve (calm_round t) (Some (calm_round t))) [1; 3] ++
  [Serve (mkround (at_ (21, 0)) true [(at_ (21, 0), Datagram asks_text peer); (at_ (21, 0), Datagram [] peer)] (sends 21)) (Some (calm_round 21)); serve 22; Reload (here three); serve 23;
   Serve (mkround (at_ (24, 0)) true [(at_ (24, 0), Failure)] (sends 24)) None; serve 25].
Lemma both_proper : Forall proper_deed both.
Proof.
  assert (C : forall t, 0 <= t -> proper_round (calm_round t)) by (intros t T; exact (proj1 (serve_proper t T))).
  unfold both. cbn [map app]. constructor; [split; [exact three_proper|intros t Q; injection Q as <-; vm_compute; discriminate]|].
  do 2 (constructor; [split; [apply C; lia|intros y Q; injection Q as <-; apply C; lia]|]).
  constructor. { split; [|intros y Q; injection Q as <-; apply C; lia]. split; [vm_compute; discriminate|]. split; [|apply sends_writing; lia].
    intros e x [Q|[Q|[]]]; injection Q as <- <-; (split; [vm_compute; discriminate|]); [|constructor]. apply bytesb_ok. vm_compute. reflexivity. }
  constructor; [apply serve_proper; lia|]. constructor; [exact three_proper|]. constructor; [apply serve_proper; lia|].
  constructor. { split; [|discriminate]. split; [vm_compute; discriminate|]. split; [|apply sends_writing; lia]. intros e x [Q|[]]; injection Q as <- <-. split; [vm_compute; discriminate|exact I]. }
  constructor; [apply serve_proper; lia|constructor].
Qed.
Example C120_case_both : exists x ps, live_on eth0 (mkcontexts (context (1, 0) None) None) both = Ok (x, ps, false) /\ List.length ps = 7%nat /\ exists d6, v6 x = Some d6 /\ lived (v4 x) /\ lived d6.
Proof.
  assert (B : match live_on eth0 (mkcontexts (context (1, 0) None) None) both with Ok (x, ps, ok) => (negb ok && (Nat.eqb (List.length ps) 7 && match v6 x with Some _ => true | None => false end))%bool | _ => false end = true) by (vm_compute; reflexivity).
  pose proof (interface_runs (1, 0) eth0 both ltac:(discriminate) both_proper) as Lv.
  destruct (live_on eth0 (mkcontexts (context (1, 0) None) None) both) as [[[x ps] ok]| | |]; try discriminate B. destruct Lv as (L4 & L6).
  apply andb_prop in B as (B1 & B). apply andb_prop in B as (B2 & B3). destruct ok; [discriminate B1|]. exists x, ps. split; [reflexivity|]. split; [apply Nat.eqb_eq; exact B2|].
  destruct (v6 x) as [d6|]; [|discriminate B3]. exists d6. split; [reflexivity|]. split; [exact L4|apply L6; reflexivity].
Qed.
(* Records are made and announced; one is asked for *)
Definition day : list (tv * op) :=
  [((1, 0), OShared (nm 97) QTYPE_TXT 60); ((1, 0), OSetRaw 0 (repeat 1 400)); ((1, 0), OUnique (nm 98) QTYPE_SRV 60 (Some 7%nat)); ((1, 0), OSetSrv 1 0 0 80 (nm 99));
   ((1, 0), OOut); ((2, 0), OOut); ((3, 0), OSleep); ((4, 0), OOut); ((9, 0), OIn (asking 0 [mkquestion (nm 97) QTYPE_TXT 1] []) peer); ((9, 0), OOut); ((9, 0), OEndStep)].
Example C120_case_room : life (annals 1000 day) (story 1000 day) /\ (forall ev, In ev (annals 1000 day) -> roomy (ev_before ev)) /\ List.length (annals 1000 day) = 11%nat.
Proof.
  split; [|split; [|vm_compute; reflexivity]].
  - exists (1, 0). split; [vm_compute; discriminate|]. split; [apply annals_history|]. apply Forall_forall. intros ev Iv. apply dailyb_ok.
    assert (B : forallb (fun ev => dailyb (ev_call ev)) (annals 1000 day) = true) by (vm_compute; reflexivity). rewrite forallb_forall in B. exact (B ev Iv).
  - intros ev Iv. assert (B : forallb (fun ev => roomyb (ev_before ev)) (annals 1000 day) = true) by (vm_compute; reflexivity). rewrite forallb_forall in B.
    apply roomyb_ok; [|exact (B ev Iv)]. apply in_split in Iv as (l1 & l2 & E). pose proof (annals_history 1000 day) as Hh. rewrite E in Hh.
    exact (FactsOut.history_reach _ _ _ (reach_new (1, 0) 1 1000 ltac:(discriminate)) (proj1 (FactsLife.history_split _ _ _ _ _ Hh))).
Qed.
