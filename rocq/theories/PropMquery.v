(* mquery: C77-C87.
   Vocabulary: SpecMquery.v, SpecReent.v, SpecStep.v, SpecTxt.v.  Model: Mquery.v, Reent.v. *)
From Verif Require Import Base SpecDns SpecMap SpecTxt Wire Rec Qry Out In Api Reent SpecDaemon SpecCache SpecReent Step SpecStep Scenario Mquery SpecMquery ScenarioMq FactsMq FactsMq2 FactsMq3 FactsMqBig FactsMq5 FactsMq6 FactsMq8 FactsMq7.

(* inet_ntop, for the examples: the bytes themselves *)
Definition as_is (f : Z) (a : list Z) : list Z := firstn 45 a.
Lemma as_is_short : forall f a, zlen (as_is f a) < INET6_ADDRSTRLEN.
Proof. intros f a. unfold as_is, zlen, INET6_ADDRSTRLEN. pose proof (firstn_le_length 45 a). lia. Qed.

(* A network with one web server, w, on the host a.local. *)
Definition http : list Z := [95; 104; 116; 116; 112; 46; 95; 116; 99; 112; 46; 108; 111; 99; 97; 108; 46]. (* _http._tcp.local. *)
Definition web : list Z := [119; 46] ++ http.
Definition ptr (n m : list Z) : list mcall := [MRr SAn n QTYPE_PTR 1 120; MName m].
Definition srv (n h : list Z) (port : Z) : list mcall := [MRr SAn n QTYPE_SRV 1 120; MSrv 0 0 port (Some h)].
Definition addr4 (n a : list Z) : list mcall := [MRr SAn n QTYPE_A 1 120; MIp4 a].
Definition txt (n d : list Z) : list mcall := [MRr SAn n QTYPE_TXT 1 120; MRaw d].
Definition net (web host : list Z) : list (tv * list (list Z)) :=
  let about := srv web host 80 ++ txt web [9; 112; 114; 111; 100; 117; 99; 116; 61; 90] in
  [((1, 0), []); ((2, 0), [told_by (ptr DISCO_NAME http)]); ((2, 5), [told_by (ptr http web ++ about)]); ((3, 0), [told_by about]);
   ((3, 5), [told_by (addr4 host [10; 0; 0; 1] ++ addr4 host [10; 0; 0; 2])])].
Definition scan : loop tables := ran (ans_dev as_is) no_tables true 0 (1, 0) (net web (nm 97)).
Lemma scan_session : session (ans_dev as_is) no_tables true 0 1 scan.
Proof. exact (ran_session _ (ans_dev as_is) no_tables true 0 1 _ eq_refl). Qed.
Definition shortb (l : list call) : bool :=
  forallb (fun c => (zlen (a_name (snd c)) <=? 255) && match a_rdname (snd c) with Some n => zlen n <=? 255 | None => true end) l.
Lemma shortb_ok : forall l, shortb l = true -> Forall short l.
Proof.
  intros l K. apply Forall_forall. intros c I. unfold shortb in K. rewrite forallb_forall in K. apply K in I. apply andb_true_iff in I as [I1 I2]. split; [lia|]. intros n E. rewrite E in I2. lia.
Qed.
Lemma scan_short : Forall short (told (Q (l_daemon scan))).
Proof. apply shortb_ok. vm_compute. reflexivity. Qed.
Lemma scan_tables : l_prog scan = mktables [mkinstance web (nm 97) 80 [90] []] [mkdevice (nm 97) [[10; 0; 0; 1]; [10; 0; 0; 2]]].
Proof. vm_compute. reflexivity. Qed.

(* ---- C77 ---- *)
(* Whatever the network sends, a turn of mquery's loop goes well unless a datagram
   is not self-contained or a message is larger than a packet. *)
Theorem C77_partial : forall ntop terminate wait start s e ready li lo t, session (ans_dev ntop) no_tables terminate wait start s -> 0 <= fst (e_now e) -> reading li -> timed lo ->
  goes_well tables (ans_dev ntop) no_tables li lo (turn (ans_dev ntop) terminate wait start s e ready li lo t).
Proof. intros ntop terminate wait start s e ready li lo t. apply mq_safe. apply ans_dev_total. Qed.
Print Assumptions C77_partial.
Theorem C77_listing_partial : forall ntop simple terminate wait start s e ready li lo t, session (ans ntop simple) [] terminate wait start s -> 0 <= fst (e_now e) -> reading li -> timed lo ->
  goes_well (list printed) (ans ntop simple) [] li lo (turn (ans ntop simple) terminate wait start s e ready li lo t).
Proof. intros ntop simple terminate wait start s e ready li lo t. apply mq_safe. apply ans_total. Qed.
Print Assumptions C77_listing_partial.
(* A message can become larger than a packet: anybody on the network can make
   mquery write beyond it, with datagrams that are all well-formed. *)
Theorem C77_refuted : forall ntop, exists s e li lo, session (ans_dev ntop) no_tables true 0 1 s /\ 0 <= fst (e_now e) /\ reading li /\ brings self_contained li /\ timed lo /\
  turn (ans_dev ntop) true 0 1 s e true li lo 1 = UB (OobWrite MAX_PACKET_LEN).
Proof.
  intros ntop. destruct (remote_overflow ntop) as (li & H1 & H2 & H3 & H4). exists loop0, big_env, li, [(big_env, true)]. split; [exact H3|]. split; [cbn; lia|]. split; [exact H1|]. split; [exact H2|]. split; [|exact H4]. intros e b [K|[]]. injection K as <- _. cbn. lia.
Qed.
Print Assumptions C77_refuted.
Example C77_case : session (ans_dev as_is) no_tables true 0 1 scan /\
  match at_once (ans_dev as_is) true 0 1 scan (4, 0) [told_by (ptr DISCO_NAME http)] with Ok (_, _, ps, v) => Some (length ps, v) | _ => None end = Some (1%nat, Again).
Proof. split; [exact scan_session|]. vm_compute. reflexivity. Qed.

(* ---- C78 ---- *)
(* The devices of mquery -D are the hosts whose addresses were told, each once,
   with the first eight different addresses in the order in which they came. *)
Theorem C78 : forall ntop terminate wait start s, (forall f a, zlen (ntop f a) < INET6_ADDRSTRLEN) -> session (ans_dev ntop) no_tables terminate wait start s -> Forall short (told (Q (l_daemon s))) ->
  NoDup (map v_host (devices (l_prog s))) /\
  (forall h, In h (map v_host (devices (l_prog s))) <-> addresses_of ntop h (told (Q (l_daemon s))) <> []) /\
  (forall v, In v (devices (l_prog s)) -> v_addrs v = firstn 8 (firsts (addresses_of ntop (v_host v) (told (Q (l_daemon s)))))).
Proof. intros ntop terminate wait start s H K F. exact (proj1 (session_tables ntop H _ _ _ _ K F)). Qed.
Print Assumptions C78.
Example C78_case : session (ans_dev as_is) no_tables true 0 1 scan /\ Forall short (told (Q (l_daemon scan))) /\
  devices (l_prog scan) = [mkdevice (nm 97) [[10; 0; 0; 1]; [10; 0; 0; 2]]] /\ addresses_of as_is (nm 97) (told (Q (l_daemon scan))) = [[10; 0; 0; 1]; [10; 0; 0; 2]].
Proof. split; [exact scan_session|]. split; [exact scan_short|]. split; [rewrite scan_tables; reflexivity|vm_compute; reflexivity]. Qed.

(* ---- C79 ---- *)
(* The services of mquery -D are those that were told of, each once; with the
   host and port told first, and the "product" and "version" told first, cut to what
   the table has room for. *)
Theorem C79 : forall ntop terminate wait start s, (forall f a, zlen (ntop f a) < INET6_ADDRSTRLEN) -> session (ans_dev ntop) no_tables terminate wait start s -> Forall short (told (Q (l_daemon s))) ->
  let T := told (Q (l_daemon s)) in
  NoDup (map i_name (instances (l_prog s))) /\
  (forall n, In n (map i_name (instances (l_prog s))) <-> exists c, In c T /\ tells_of n c) /\
  (forall i, In i (instances (l_prog s)) ->
    (exists o, first_of (located (i_name i)) T o /\ (i_host i, i_port i) = match o with Some p => p | None => ([], 0) end) /\
    (exists o, first_of (described (i_name i) [112; 114; 111; 100; 117; 99; 116]) T o /\ i_product i = match o with Some v => firstn 63 v | None => [] end) /\
    (exists o, first_of (described (i_name i) [118; 101; 114; 115; 105; 111; 110]) T o /\ i_version i = match o with Some v => firstn 63 v | None => [] end)).
Proof. intros ntop terminate wait start s H K F. exact (proj2 (session_tables ntop H _ _ _ _ K F)). Qed.
Print Assumptions C79.
Example C79_case : session (ans_dev as_is) no_tables true 0 1 scan /\ Forall short (told (Q (l_daemon scan))) /\ instances (l_prog scan) = [mkinstance web (nm 97) 80 [90] []].
Proof. split; [exact scan_session|]. split; [exact scan_short|]. rewrite scan_tables. reflexivity. Qed.

(* ---- C80 ---- *)
(* What is found is looked up further: the instances of a service type, where an
   instance is and what its attributes are, and the addresses of its host. *)
Theorem C80_partial : forall ntop terminate wait start s, (forall f a, zlen (ntop f a) < INET6_ADDRSTRLEN) -> session (ans_dev ntop) no_tables terminate wait start s ->
  let T := told (Q (l_daemon s)) in
  (forall c n, In c T -> there c -> a_type (snd c) = QTYPE_PTR -> a_rdname (snd c) = Some n -> n <> [] ->
     if Nat.eqb (fst c) PLAIN then looked_up (l_daemon s) n QTYPE_PTR else looked_up (l_daemon s) n QTYPE_SRV /\ looked_up (l_daemon s) n QTYPE_TXT) /\
  (Forall short T -> forall n h p, first_of (located n) T (Some (h, p)) -> looked_up (l_daemon s) h QTYPE_A /\ looked_up (l_daemon s) h QTYPE_AAAA).
Proof. intros ntop terminate wait start s H. exact (session_lookups ntop H terminate wait start s). Qed.
Print Assumptions C80_partial.
(* Not every service type is browsed: once somebody has named the list of
   service types a service type, the types found are taken for instances. *)
Definition hijacked : loop tables := ran (ans_dev as_is) no_tables true 0 (1, 0) [((1, 0), []); ((2, 0), [told_by (ptr DISCO_NAME DISCO_NAME)]); ((2, 5), [told_by (ptr DISCO_NAME http)])].
Theorem C80_refuted : exists ntop s c, session (ans_dev ntop) no_tables true 0 1 s /\ In c (told (Q (l_daemon s))) /\ there c /\ a_type (snd c) = QTYPE_PTR /\
  a_name (snd c) = DISCO_NAME /\ a_rdname (snd c) = Some http /\ ~ looked_up (l_daemon s) http QTYPE_PTR.
Proof.
  exists as_is, hijacked.
  assert (Et : exists t c, told (Q (l_daemon hijacked)) = t ++ [c] /\ a_ttl (snd c) <> 0 /\ a_type (snd c) = QTYPE_PTR /\ a_name (snd c) = DISCO_NAME /\ a_rdname (snd c) = Some http).
  { eexists [_], _. split; [vm_compute; reflexivity|]. split; [discriminate|]. split; [reflexivity|]. split; reflexivity. }
  destruct Et as (t & c & E & C1 & C2 & C3 & C4). exists c. split; [exact (ran_session _ (ans_dev as_is) no_tables true 0 1 _ eq_refl)|]. split; [rewrite E; apply in_or_app; right; left; reflexivity|].
  split; [exact C1|]. split; [exact C2|]. split; [exact C3|]. split; [exact C4|]. intros (y & (q & I & Ey) & Ny & Yy).
  assert (G : forallb (fun q => match qh (Q (l_daemon hijacked)) q with Some x => negb (bytes_eqb (q_nm x) http && (q_ty x =? QTYPE_PTR)) | None => true end) (qlist (Q (l_daemon hijacked))) = true) by (vm_compute; reflexivity).
  rewrite forallb_forall in G. specialize (G q I). rewrite Ey, Ny, Yy in G. discriminate G.
Qed.
Print Assumptions C80_refuted.
Example C80_case : session (ans_dev as_is) no_tables true 0 1 scan /\
  map (fun c => (fst c, a_type (snd c))) (told (Q (l_daemon scan))) = [(PLAIN, QTYPE_PTR); (SPEC, QTYPE_PTR); (PLAIN, QTYPE_SRV); (PLAIN, QTYPE_TXT); (PLAIN, QTYPE_A); (PLAIN, QTYPE_A)].
Proof. split; [exact scan_session|]. vm_compute. reflexivity. Qed.

(* ---- C81 ---- *)
(* The table of mquery -D: the lines of every device, in columns. *)
Theorem C81 : forall ntop terminate wait start s, (forall f a, zlen (ntop f a) < INET6_ADDRSTRLEN) -> session (ans_dev ntop) no_tables terminate wait start s -> Forall short (told (Q (l_daemon s))) ->
  exists c1 c2 ls, print_devices (l_prog s) None = concat ls /\ Forall2 (fun v l => exists p, product_of (l_prog s) v p /\ rows c1 c2 v p l) (devices (l_prog s)) ls.
Proof. intros ntop terminate wait start s H. exact (session_table ntop H terminate wait start s). Qed.
Print Assumptions C81.
Example C81_case : session (ans_dev as_is) no_tables true 0 1 scan /\ Forall short (told (Q (l_daemon scan))) /\
  print_devices (l_prog scan) None = [[97; 46; 108; 111; 99; 97; 108; 32; 32; 32] ++ [10; 0; 0; 1] ++ repeat 32 6 ++ [90]; repeat 32 10 ++ [10; 0; 0; 2]].
Proof. split; [exact scan_session|]. split; [exact scan_short|]. rewrite scan_tables. vm_compute. reflexivity. Qed.

(* ---- C82 ---- *)
(* mquery -d HOST prints the devices with that name, each with its addresses and
   the services on it. *)
Theorem C82_partial : forall ntop terminate wait start s given, (forall f a, zlen (ntop f a) < INET6_ADDRSTRLEN) -> session (ans_dev ntop) no_tables terminate wait start s -> Forall short (told (Q (l_daemon s))) ->
  (forall v, In v (devices (l_prog s)) -> exists x, no_dot x /\ v_host v = x ++ LOCAL) ->
  exists p, (forall v, In v (devices (l_prog s)) -> (p v = true <-> meant given (v_host v))) /\
    print_device_detail (l_prog s) (Some given) =
    map (fun v => (undotted (v_host v), v_addrs v, map (fun i => (service_of (i_name i), i_port i, i_product i, i_version i)) (filter (fun i => bytes_eqb (i_host i) (v_host v)) (instances (l_prog s)))))
        (filter p (devices (l_prog s))).
Proof. intros ntop terminate wait start s given H. exact (session_detail ntop H terminate wait start s given). Qed.
Print Assumptions C82_partial.
(* Host names with a dot: "a" finds a.b.local., "a.b" does not. *)
Definition dotted : loop tables := ran (ans_dev as_is) no_tables true 0 (1, 0) (net web [97; 46; 98; 46; 108; 111; 99; 97; 108; 46]).
Theorem C82_refuted : exists ntop s v given other, session (ans_dev ntop) no_tables true 0 1 s /\ devices (l_prog s) = [v] /\ print_device_detail (l_prog s) (Some given) = [] /\ meant given (v_host v) /\
  print_device_detail (l_prog s) (Some other) <> [] /\ ~ meant other (v_host v).
Proof.
  exists as_is, dotted, (mkdevice [97; 46; 98; 46; 108; 111; 99; 97; 108; 46] [[10; 0; 0; 1]; [10; 0; 0; 2]]), [97; 46; 98], [97].
  assert (E : l_prog dotted = mktables [mkinstance web [97; 46; 98; 46; 108; 111; 99; 97; 108; 46] 80 [90] []] [mkdevice [97; 46; 98; 46; 108; 111; 99; 97; 108; 46] [[10; 0; 0; 1]; [10; 0; 0; 2]]]) by (vm_compute; reflexivity).
  rewrite E. split; [exact (ran_session _ (ans_dev as_is) no_tables true 0 1 _ eq_refl)|]. split; [reflexivity|]. split; [vm_compute; reflexivity|]. split; [right; right; reflexivity|]. split; [vm_compute; discriminate|]. intros [K|[K|K]]; discriminate K.
Qed.
Print Assumptions C82_refuted.
Example C82_case : session (ans_dev as_is) no_tables true 0 1 scan /\ Forall short (told (Q (l_daemon scan))) /\ (forall v, In v (devices (l_prog scan)) -> exists x, no_dot x /\ v_host v = x ++ LOCAL) /\
  print_device_detail (l_prog scan) (Some [97]) = [([97; 46; 108; 111; 99; 97; 108], [[10; 0; 0; 1]; [10; 0; 0; 2]], [([95; 104; 116; 116; 112; 46; 95; 116; 99; 112], 80, [90], [])])] /\
  print_device_detail (l_prog scan) (Some [98]) = [].
Proof.
  rewrite scan_tables. split; [exact scan_session|]. split; [exact scan_short|]. split; [|split; vm_compute; reflexivity]. intros v [<-|[]]. exists [97]. split; [intros [K|[]]; discriminate K|reflexivity].
Qed.

(* ---- C83 ---- *)
(* The service shown for an instance is its type *)
Theorem C83_partial : forall inst a b r, no_dot inst -> no_dot a -> no_dot b -> zlen (a ++ 46 :: b ++ 46 :: r) <= 255 -> service_of (inst ++ 46 :: a ++ 46 :: b ++ 46 :: r) = a ++ 46 :: b.
Proof. exact service_of_ok. Qed.
Print Assumptions C83_partial.
(* Not if the name of the instance has a dot, as with "v2.0._http._tcp.local." *)
Theorem C83_refuted : exists inst a b r, no_dot a /\ no_dot b /\ zlen (inst ++ 46 :: a ++ 46 :: b ++ 46 :: r) <= 255 /\ service_of (inst ++ 46 :: a ++ 46 :: b ++ 46 :: r) <> a ++ 46 :: b.
Proof.
  exists [118; 50; 46; 48], [95; 104; 116; 116; 112], [95; 116; 99; 112], [108; 111; 99; 97; 108; 46]. split; [unfold no_dot; cbn; intuition discriminate|]. split; [unfold no_dot; cbn; intuition discriminate|]. split; vm_compute; discriminate.
Qed.
Print Assumptions C83_refuted.
Example C83_case : service_of web = [95; 104; 116; 116; 112; 46; 95; 116; 99; 112].
Proof. vm_compute. reflexivity. Qed.

(* ---- C84 ---- *)
(* mquery -T: the loop looks at the clock every second, and ends with the first
   turn that ends two seconds or more after the last datagram. *)
Theorem C84_begin : forall A t family name type (a0 : A) buf s, begin t family name type a0 buf = Ok s -> l_last s = 0.
Proof. intros A. exact (@begin_last A). Qed.
Print Assumptions C84_begin.
Theorem C84 : forall A (beh : behaviour A) a0 start s e ready li lo t s' sl ps v, session beh a0 true 0 start s -> turn beh true 0 start s e ready li lo t = Ok (s', sl, ps, v) ->
  (fst sl < 1 \/ sl = (1, 0)) /\ l_last s' = latest (l_last s) (if ready then li else []) /\
  (v = Done -> l_last s' <> 0 /\ l_last s' + 2 <= t) /\ (l_last s' <> 0 -> l_last s' + 2 <= t -> v <> Again).
Proof. intros A beh a0. exact (@turn_ends A beh a0). Qed.
Print Assumptions C84.
Example C84_case : session (ans_dev as_is) no_tables true 0 1 scan /\ l_last scan = 3 /\
  match at_once (ans_dev as_is) true 0 1 scan (5, 0) [] with Ok (_, _, _, v) => Some v | _ => None end = Some Done /\
  match at_once (ans_dev as_is) true 0 1 scan (4, 0) [] with Ok (_, _, _, v) => Some v | _ => None end = Some Again.
Proof. split; [exact scan_session|]. split; [vm_compute; reflexivity|]. split; vm_compute; reflexivity. Qed.

(* ---- C85 ---- *)
(* mquery -w SEC: no turn after the one in which the time is over, none before is the last *)
Theorem C85_partial : forall A (beh : behaviour A) a0 wait start s e ready li lo t s' sl ps v, session beh a0 false wait start s -> wait <> 0 -> turn beh false wait start s e ready li lo t = Ok (s', sl, ps, v) ->
  (v = Done -> start + wait <= t) /\ (start + wait <= t -> v <> Again).
Proof. intros A beh a0. exact (@turn_waits A beh a0). Qed.
Print Assumptions C85_partial.
(* But on a silent network the turn itself waits for a day *)
Definition silent : loop tables := ran (ans_dev as_is) no_tables false 10 (1, 0) [((1, 0), []); ((2, 0), []); ((4, 0), []); ((7, 0), []); ((7, 0), [])].
Theorem C85_refuted : exists ntop s e, session (ans_dev ntop) no_tables false 10 1 s /\ fst (e_now e) < 1 + 10 /\
  exists s' sl ps, turn (ans_dev ntop) false 10 1 s e false [] (outgoing (e_now e)) (fst (e_now e)) = Ok (s', sl, ps, Again) /\ 86000 < fst sl.
Proof.
  exists as_is, silent, (at_ (7, 0)). split; [exact (ran_session _ (ans_dev as_is) no_tables false 10 1 _ eq_refl)|]. split; [cbn; lia|].
  assert (E : match turn (ans_dev as_is) false 10 1 silent (at_ (7, 0)) false [] (outgoing (7, 0)) 7 with Ok (_, sl, _, Again) => Some sl | _ => None end = Some (86392, 0)) by (vm_compute; reflexivity).
  cbn [at_ e_now fst]. change (mkenv (7, 0) 0 None (fun _ => false)) with (at_ (7, 0)) in *.
  match goal with |- exists s' sl ps, ?X = _ /\ _ => change X with (turn (ans_dev as_is) false 10 1 silent (at_ (7, 0)) false [] (outgoing (7, 0)) 7) end.
  destruct (turn (ans_dev as_is) false 10 1 silent (at_ (7, 0)) false [] (outgoing (7, 0)) 7) as [[[[s' sl] ps] []]| | |]; try discriminate E. injection E as ->. exists s', (86392, 0), ps. split; [reflexivity|]. cbn; lia.
Qed.
Print Assumptions C85_refuted.
Example C85_case : session (ans_dev as_is) no_tables false 10 1 silent /\
  match at_once (ans_dev as_is) false 10 1 silent (11, 0) [] with Ok (_, _, _, v) => Some v | _ => None end = Some Done /\
  match at_once (ans_dev as_is) false 10 1 silent (10, 0) [] with Ok (_, _, _, v) => Some v | _ => None end = Some Again.
Proof. split; [exact (ran_session _ (ans_dev as_is) no_tables false 10 1 _ eq_refl)|]. split; vm_compute; reflexivity. Qed.

(* ---- C86 ---- *)
(* Without -i the interface is that of the first default route that is up *)
Theorem C86_partial : forall len l, match getifname [] len l with Some n => exists r, first_default l r /\ n = firstn (Z.to_nat (len - 1)) (ro_name r) | None => forall r, In r l -> ~ default_up r end.
Proof. exact getifname_ok. Qed.
Print Assumptions C86_partial.
(* It may be a tunnel although another one is there *)
Theorem C86_refuted : exists l tun eth, default_up eth /\ In eth l /\ firstn 3 (ro_name eth) <> [116; 117; 110] /\ firstn 3 (ro_name tun) = [116; 117; 110] /\ getifname [] 16 l = Some (ro_name tun).
Proof.
  exists [mkroute 11 [116; 117; 110; 48] 0 1 0; mkroute 11 [101; 116; 104; 48] 0 1 0], (mkroute 11 [116; 117; 110; 48] 0 1 0), (mkroute 11 [101; 116; 104; 48] 0 1 0).
  split; [repeat split; discriminate|]. split; [right; left; reflexivity|]. split; [discriminate|]. split; [reflexivity|]. vm_compute. reflexivity.
Qed.
Print Assumptions C86_refuted.
Example C86_case : getifname [] 16 [mkroute 11 [108; 111] 0 0 0; mkroute 11 [97] 5 1 255; mkroute 11 [101; 116; 104; 48] 0 1 0] = Some [101; 116; 104; 48].
Proof. vm_compute. reflexivity. Qed.

(* ---- C87 ---- *)
(* mquery lists, in order, every name that a pointer was told to have, and asks
   for the pointers of those found with the name given. *)
Theorem C87_partial : forall ntop terminate wait start s, session (ans ntop false) [] terminate wait start s ->
  l_prog s = flat_map (found_by ntop) (told (Q (l_daemon s))) /\
  (forall c n, In c (told (Q (l_daemon s))) -> fst c = PLAIN -> a_type (snd c) = QTYPE_PTR -> a_rdname (snd c) = Some n -> looked_up (l_daemon s) n QTYPE_PTR).
Proof. intros ntop terminate wait start s K. split; [exact (session_listed ntop terminate wait start s K)|exact (session_browses ntop terminate wait start s K)]. Qed.
Print Assumptions C87_partial.
(* A name that is withdrawn is listed as found once more *)
Definition bye (n m : list Z) : list mcall := [MRr SAn n QTYPE_PTR 1 0; MName m].
Definition leaving : loop (list printed) := ran (ans as_is false) [] false 0 (1, 0) [((1, 0), []); ((2, 0), [told_by (ptr DISCO_NAME http)]); ((2, 5), [told_by (bye DISCO_NAME http)])].
Theorem C87_refuted : exists ntop s c n ip, session (ans ntop false) [] false 0 1 s /\ told (Q (l_daemon s)) = [(PLAIN, n); c] /\ a_ttl (snd c) = 0 /\ a_rdname (snd c) = Some http /\ l_prog s = [PFound http ip; PFound http ip].
Proof.
  exists as_is, leaving. eexists (PLAIN, _), _, _. split; [exact (ran_session _ (ans as_is false) [] false 0 1 _ eq_refl)|]. split; [vm_compute; reflexivity|]. split; [reflexivity|]. split; [reflexivity|]. vm_compute. reflexivity.
Qed.
Print Assumptions C87_refuted.
Example C87_case : session (ans as_is false) [] false 0 1 leaving /\ length (told (Q (l_daemon leaving))) = 2%nat.
Proof. split; [exact (ran_session _ (ans as_is false) [] false 0 1 _ eq_refl)|]. vm_compute. reflexivity. Qed.

(* ---- C90 ---- *)
(* mquery does not flood: a turn sends two packets at most in a second, and the
   third call of mdnsd_out in a second ends it. *)
Theorem C90 : forall ntop terminate wait start s e ready li lo t n, session (ans_dev ntop) no_tables terminate wait start s -> 0 <= fst (e_now e) -> reading li -> timed lo -> within n lo ->
  ((3 <= length lo)%nat -> turn (ans_dev ntop) terminate wait start s e ready li lo t <> Hang) /\
  (forall s' sl ps v, turn (ans_dev ntop) terminate wait start s e ready li lo t = Ok (s', sl, ps, v) -> (length ps <= 2)%nat).
Proof. intros ntop. exact (turn_brief (ans_dev ntop) no_tables (ans_dev_total ntop)). Qed.
Print Assumptions C90.
Theorem C90_listing : forall ntop simple terminate wait start s e ready li lo t n, session (ans ntop simple) [] terminate wait start s -> 0 <= fst (e_now e) -> reading li -> timed lo -> within n lo ->
  ((3 <= length lo)%nat -> turn (ans ntop simple) terminate wait start s e ready li lo t <> Hang) /\
  (forall s' sl ps v, turn (ans ntop simple) terminate wait start s e ready li lo t = Ok (s', sl, ps, v) -> (length ps <= 2)%nat).
Proof. intros ntop simple. exact (turn_brief (ans ntop simple) [] (ans_total ntop simple)). Qed.
Print Assumptions C90_listing.
(* Two it can be: what was just found is asked for, and then what is asked again *)
Definition again : loop tables := ran (ans_dev as_is) no_tables true 0 (1, 0)
  [((1, 0), []); ((2, 0), []); ((3, 0), [told_by [MRr SAn DISCO_NAME QTYPE_PTR 1 2; MName web]]); ((4, 0), []); ((6, 0), [told_by (ptr (nm 97) (nm 98))])].
Example C90_case : session (ans_dev as_is) no_tables true 0 1 again /\ within 7 (outgoing (7, 0)) /\
  match at_once (ans_dev as_is) true 0 1 again (7, 0) [told_by (ptr DISCO_NAME http)] with Ok (_, _, ps, v) => Some (length ps, v) | _ => None end = Some (2%nat, Again).
Proof.
  split; [exact (ran_session _ (ans_dev as_is) no_tables true 0 1 _ eq_refl)|]. split; [|vm_compute; reflexivity]. intros e b I. destruct I as [I|[I|[I|[]]]]; injection I as <- _; reflexivity.
Qed.
