(* The command line of mquery: C115.
   Vocabulary: SpecMqMain.v, SpecOptions.v, SpecMain.v, SpecMquery.v, SpecDns.v.
   Model: MqMain.v, Mquery.v, Main.v. *)
From Verif Require Import Base Lib SpecLib Log SpecOptions SpecDns Wire WireSafe WireCalls Rec Qry Out In Api Reent SpecReent SpecDaemon Step SpecStep Scenario Mquery SpecMquery FactsMq2 FactsMq3 ScenarioMq Iface Main SpecMain FactsPassing MqMain SpecMqMain FactsMqMain.

(* The first option that is not accepted ends mquery, before anything is opened or
   sent, whatever follows. *)
Theorem C115_exits : forall k pre o post ops routes, Forall mq_accepted pre -> ~ mq_accepted o -> mq_prepare k (pre ++ o :: post) ops routes = ([], Ends (mq_refusal o)).
Proof. exact prepare_stops. Qed.
Print Assumptions C115_exits.
(* With accepted options it ends with status 1, nothing left open, if there is no
   interface or no socket.  Otherwise it has one socket, of the family asked for, on
   the interface chosen, and asks with -D or -d for the services there are, else for
   the name and type given. *)
Theorem C115_starts : forall k os ops routes, honest k -> Forall mq_accepted os ->
  match mq_prepare k os ops routes with
  | (tr, Ends code) => code = 1 /\ opened tr = [] /\ (chosen os routes None /\ tr = [] \/ exists family, (In QSix os /\ family = AF_INET6 \/ ~ In QSix os /\ family = AF_INET) /\ refused tr family)
  | (tr, Starts p) => agrees os (p_conf p) /\ (In QSix os /\ p_family p = AF_INET6 \/ ~ In QSix os /\ p_family p = AF_INET) /\ opened tr = [p_fd p] /\
      (exists name, chosen os routes (Some name) /\ prepared tr (p_fd p) (p_family p) name 1) /\
      (browses os /\ p_name p = DISCO_NAME /\ p_type p = QTYPE_PTR \/ ~ browses os /\ p_name p = hd DISCO_NAME ops /\ p_type p = m_type (p_conf p))
  end.
Proof. exact prepare_goes'. Qed.
Print Assumptions C115_starts.
(* If nothing is received in the first turn, the first packet goes to the group of
   the family, and whoever reads it finds one question, for the name and type. *)
Theorem C115_asks : forall A (beh : behaviour A) t p (a : A) buf s terminate wait began e li e1 sent lo tend s' sl ps v tld l,
  mq_begin t p a buf = Ok s -> 0 < fst t <= fst (e_now e1) -> Mquery.turn beh terminate wait began s e false li ((e1, sent) :: lo) tend = Ok (s', sl, ps, v) ->
  p_name p = dotted l -> legal_name l -> ends_only_in tld l -> 0 <= p_type p < 65536 ->
  exists pk ps', ps = (mcast (p_family p), pk) :: ps' /\
    forall b, bytebuf b -> zlen pk <= b_size b -> (forall i, 0 <= i < zlen pk -> b_at b i = zget pk i) ->
      exists c n, message_parse b MSG_BLOCK = Ok (mkmessage 0 (mkheader 0 0 0 0 0 0 0 0) [mkquestion (p_name p) (p_type p) 1] [] [] [], c, n).
Proof. exact first_asked. Qed.
Print Assumptions C115_asks.
(* The loop, over any number of turns: it goes on, or ends with status 0 or 1, or a
   message is larger than its packet (C77_refuted). *)
Theorem C115_loop_partial : forall ntop terminate wait start l s, session (ans_dev ntop) no_tables terminate wait start s -> Forall usual l ->
  match mq_loop (ans_dev ntop) terminate wait start s l with
  | Ok (s', _, None) => session (ans_dev ntop) no_tables terminate wait start s'
  | Ok (_, _, Some c) => c = 0 \/ c = 1
  | UB (OobWrite _) => exists i, In i l /\ overfull tables (ans_dev ntop) no_tables (i_send i)
  | _ => False
  end.
Proof. intros. apply loop_runs; [apply ans_dev_total| |]; assumption. Qed.
Print Assumptions C115_loop_partial.
Theorem C115_listing_partial : forall ntop simple terminate wait start l s, session (ans ntop simple) [] terminate wait start s -> Forall usual l ->
  match mq_loop (ans ntop simple) terminate wait start s l with
  | Ok (s', _, None) => session (ans ntop simple) [] terminate wait start s'
  | Ok (_, _, Some c) => c = 0 \/ c = 1
  | UB (OobWrite _) => exists i, In i l /\ overfull (list printed) (ans ntop simple) [] (i_send i)
  | _ => False
  end.
Proof. intros. apply loop_runs; [apply ans_total| |]; assumption. Qed.
Print Assumptions C115_listing_partial.
(* Its packets are those of its turns, in order.  It ends with status 0 only when a
   time limit is over, and with 1 only when receiving or sending fails. *)
Theorem C115_status : forall A (beh : behaviour A) terminate wait start l s s' ps c, mq_loop beh terminate wait start s l = Ok (s', ps, c) ->
  ran beh terminate wait start s l s' ps c /\
  match c with None => True | Some n => n = 0 /\ (exists i, In i l /\ over terminate wait start i) \/ n = 1 /\ exists i, In i l /\ broken i end.
Proof. exact loop_status. Qed.
Print Assumptions C115_status.

(* ---- a case ---- *)
(* mquery -6 -T -i lo -i eth0 -t 33 -w 5 a.local., and how it goes on *)
Definition eth0 : list Z := [101; 116; 104; 48].
Definition flags : list mqopt := [QSix; QTerminate; QIface [108; 111]; QIface eth0; QType [51; 51]; QWait [53]].
Definition setup : mqconf := mkmqconf true false true None (Some eth0) false 33 5 log_new.
Definition no_ip (f : Z) (a : list Z) : list Z := [].
Definition quiet (t : tv) (l : list (list Z)) : mqin := mkmqin (at_ t) (match l with [] => false | _ => true end) (incoming t l) (outgoing t) (fst t).
Example C115_case :
  Forall mq_accepted flags /\ ~ mq_accepted QVersion /\ honest (simple 3 0) /\ legal_name [[97]; [108; 111; 99; 97; 108]] /\ ends_only_in [108; 111; 99; 97; 108] [[97]; [108; 111; 99; 97; 108]] /\ nm 97 = dotted [[97]; [108; 111; 99; 97; 108]] /\
  snd (mq_prepare (simple 3 0) flags [nm 97] []) = Starts (mkplan 3 AF_INET6 (nm 97) 33 setup) /\
  snd (mq_prepare (simple 3 0) [QDevices] [nm 97] []) = Ends 1 /\
  match mq_begin (1, 0) (mkplan 3 AF_INET6 (nm 97) 33 setup) [] (fun _ => 0) with
  | Ok s => match mq_loop (ans no_ip false) true 5 1 s [quiet (1, 0) []; quiet (2, 0) [told_by [MRr SAn (nm 97) QTYPE_SRV 1 120; MSrv 0 0 80 (Some (nm 98))]]; quiet (3, 0) []; quiet (4, 0) []] with
            | Ok (_, ps, c) => Some (map fst ps, c)
            | _ => None
            end
  | _ => None
  end = Some ([mcast AF_INET6; mcast AF_INET6; mcast AF_INET6], Some 0).
Proof.
  split; [repeat constructor|]. split; [intros []|]. split; [apply simple_honest|].
  split; [split; [discriminate|split; [repeat constructor; cbn; try lia; repeat constructor; lia|cbn; lia]]|].
  split; [exists [[97]]; split; [reflexivity|intros [K|[]]; discriminate K]|]. split; [reflexivity|]. split; [vm_compute; reflexivity|]. split; [vm_compute; reflexivity|]. vm_compute. reflexivity.
Qed.

(* ---- what does not hold ---- *)
(* mquery with a name and type, one turn, and a second with these answers *)
Definition hears (simple : bool) (name : list Z) (type : Z) (l : list mcall) : option (list printed * list (addr * list Z)) :=
  match mq_begin (1, 0) (mkplan 3 AF_INET name type mqconf0) [] (fun _ => 0) with
  | Ok s => match mq_loop (ans no_ip simple) false 0 1 s [quiet (1, 0) []; quiet (2, 0) [told_by l]] with
            | Ok (s, ps, None) => Some (l_prog s, ps)
            | _ => None
            end
  | _ => None
  end.
Definition the_ptr : list mcall := [MRr SAn (nm 97) QTYPE_PTR 1 120; MName (nm 98)].
Definition the_a : list mcall := [MRr SAn (nm 97) QTYPE_A 1 120; MIp4 [10; 0; 0; 1]].

(* An option mquery does not have: the usage is printed, and the status is that of
   success. *)
Theorem C115_refuted_status : forall k pre post ops routes, Forall mq_accepted pre -> mq_prepare k (pre ++ QBad :: post) ops routes = ([], Ends 0).
Proof. intros k pre post ops routes F. apply (prepare_stops k pre QBad post ops routes F). intros []. Qed.
Print Assumptions C115_refuted_status.
(* -D with a name: the name is not asked for. *)
Theorem C115_refuted_name : forall k pre post ops routes tr p, honest k -> Forall mq_accepted (pre ++ QDevices :: post) -> mq_prepare k (pre ++ QDevices :: post) ops routes = (tr, Starts p) ->
  p_name p = DISCO_NAME /\ p_type p = QTYPE_PTR.
Proof.
  intros k pre post ops routes tr p H F E. pose proof (prepare_goes k _ ops routes H F) as G. rewrite E in G. destruct G as (_ & _ & _ & _ & [(_ & G)|(G & _)]); [exact G|].
  destruct G. left. apply in_or_app. right. left. reflexivity.
Qed.
Print Assumptions C115_refuted_name.
(* Without -s only answers of type PTR are shown: the address asked for with -t 1
   comes, and nothing is printed. *)
Theorem C115_refuted_shown : exists ps ps', hears false (nm 97) QTYPE_A the_a = Some ([], ps) /\ hears true (nm 97) QTYPE_A the_a = Some ([PAddr false (nm 97) []], ps') /\ ps = ps'.
Proof. eexists. eexists. split; [vm_compute; reflexivity|]. split; vm_compute; reflexivity. Qed.
Print Assumptions C115_refuted_shown.
(* A name without its last dot: the same is sent, and the answer is not shown. *)
Theorem C115_refuted_dot : exists ps, hears false (nm 97) QTYPE_PTR the_ptr = Some ([PFound (nm 98) []], ps) /\
  exists ps', hears false (removelast (nm 97)) QTYPE_PTR the_ptr = Some ([], ps') /\ hd_error ps = hd_error ps' /\ hd_error ps <> None.
Proof. eexists. split; [vm_compute; reflexivity|]. eexists. split; [vm_compute; reflexivity|]. split; [reflexivity|discriminate]. Qed.
Print Assumptions C115_refuted_dot.
(* -t 65548 is taken: 12 is sent, and the answer is not shown. *)
Theorem C115_refuted_type : mq_accepted (QType [54; 53; 53; 52; 56]) /\ atoi [54; 53; 53; 52; 56] = 65548 /\
  exists ps, hears false (nm 97) QTYPE_PTR the_ptr = Some ([PFound (nm 98) []], ps) /\
    exists ps', hears false (nm 97) 65548 the_ptr = Some ([], ps') /\ hd_error ps = hd_error ps' /\ hd_error ps <> None.
Proof. split; [exact Logic.I|]. split; [reflexivity|]. eexists. split; [vm_compute; reflexivity|]. eexists. split; [vm_compute; reflexivity|]. split; [reflexivity|discriminate]. Qed.
Print Assumptions C115_refuted_type.
