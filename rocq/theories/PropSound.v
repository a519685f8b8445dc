(* Property theorems C114: services from their files to the caches of other hosts.
   Vocabulary: SpecLoad.v, SpecHear.v, SpecSound.v. *)
From Coq Require Import String.
From Verif Require Import Base SpecDns SpecMap SpecTxt Hash Wire WireSafe Rec Qry Out In Api DaemonInv SpecDaemon SpecAddr SpecCache Lib Conf Load SpecConf SpecLoad Scenario Step SpecStep SpecHear SpecSound FactsLoad FactsLoad2 FactsLoad3 FactsSound.
Open Scope list_scope.

(* As long as nobody changes the data of the records, all that the daemon tells
   of the services is as DNS allows it: there is no history of other calls,
   packets, conflicts or withdrawals after which a response is malformed. *)
Theorem C114_sound : forall d0 e0 ifs ifname hostname l, reach d0 -> (forall r X, ~ record d0 r X) -> 0 <= fst (e_now e0) -> e_ifs e0 = Some ifs ->
  well_named hostname l -> apart hostname l -> carried ifs ifname hostname l ->
  exists d1, load_files d0 e0 ifname hostname l = Ok d1 /\ reach d1 /\
  forall h d, history d1 h d -> serving h -> 0 <= class d < 32768 ->
  forall e d' m n, legal d e OOut -> step d e OOut = Ok (d', RMsg m n) -> o_qr m = true -> forall i, says m i -> sound_item local_label i.
Proof. exact services_told. Qed.
Print Assumptions C114_sound.

(* So every host that receives the packet keeps the records in it, and its
   queries for them are told. *)
Theorem C114_heard : forall d0 e0 ifs ifname hostname l, reach d0 -> (forall r X, ~ record d0 r X) -> 0 <= fst (e_now e0) -> e_ifs e0 = Some ifs ->
  well_named hostname l -> apart hostname l -> carried ifs ifname hostname l ->
  exists d1, load_files d0 e0 ifname hostname l = Ok d1 /\
  forall h d, history d1 h d -> serving h -> 0 <= class d < 32768 ->
  forall e d' m n, legal d e OOut -> step d e OOut = Ok (d', RMsg m n) -> o_qr m = true -> u16 (o_id m) -> small_enough m ->
  forall d2 e2 from, reach d2 -> 0 <= fst (e_now e2) -> is_shutdown d2 = false -> foreign d2 e2 from ->
  exists d2', process_in d2 [(e2, Datagram (snd (packet_of m)) from)] = Ok (d2', 0) /\ reach d2' /\
    (forall X, gives (class d2) m X -> a_ttl (rr X) <> 0 -> set_by_type (rr X) -> exists c, cache_holds d2' c /\ same_content (c_rr c) (rr X) /\ fst (e_now e2) < a_ttl (c_rr c)) /\
    (forall X y, SpecHear.shows m X -> a_ttl (rr X) <> 0 -> set_by_type (rr X) -> (forall k, e_cb e2 k = false) -> registered d2 y -> is_for y (a_name (rr X)) (a_type (rr X)) ->
       (forall c, cache_holds d2 c -> ~ same_content (c_rr c) (rr X)) -> exists T v, told (Q d2') = told (Q d2) ++ T /\ In (q_cb y, v) T /\ same_content v (rr X) /\ fst (e_now e2) < a_ttl v).
Proof. exact services_heard. Qed.
Print Assumptions C114_heard.

(* What mdnsd announces and answers by multicast with the frame size it uses, 1000,
   is always small enough, for texts of up to 2660 bytes. *)
Theorem C114_multicast : forall d0 e0 ifs ifname hostname l, reach d0 -> (forall r X, ~ record d0 r X) -> 0 <= fst (e_now e0) -> e_ifs e0 = Some ifs -> well_named hostname l -> apart hostname l -> carried ifs ifname hostname l ->
  (forall s, In s l -> sum (map (fun t => len t + 1) (s_txt s)) <= 2660) ->
  exists d1, load_files d0 e0 ifname hostname l = Ok d1 /\
  forall h d, history d1 h d -> serving h -> 0 <= class d < 32768 -> frame d <= 1174 -> uans (R d) = [] ->
  forall e d' m n, legal d e OOut -> step d e OOut = Ok (d', RMsg m n) -> o_qr m = true ->
  forall d2 e2 from, reach d2 -> 0 <= fst (e_now e2) -> is_shutdown d2 = false -> foreign d2 e2 from ->
  exists d2', process_in d2 [(e2, Datagram (snd (packet_of m)) from)] = Ok (d2', 0) /\ reach d2' /\
    (forall X, gives (class d2) m X -> a_ttl (rr X) <> 0 -> set_by_type (rr X) -> exists c, cache_holds d2' c /\ same_content (c_rr c) (rr X) /\ fst (e_now e2) < a_ttl (c_rr c)) /\
    (forall X y, SpecHear.shows m X -> a_ttl (rr X) <> 0 -> set_by_type (rr X) -> (forall k, e_cb e2 k = false) -> registered d2 y -> is_for y (a_name (rr X)) (a_type (rr X)) ->
       (forall c, cache_holds d2 c -> ~ same_content (c_rr c) (rr X)) -> exists T v, told (Q d2') = told (Q d2) ++ T /\ In (q_cb y, v) T /\ same_content v (rr X) /\ fst (e_now e2) < a_ttl v).
Proof. exact services_multicast. Qed.
Print Assumptions C114_multicast.

(* Two services, probed and announced *)
Definition gate : list Z := ascii_text "gate".
Definition eth0 : list Z := ascii_text "eth0".
Definition cards : list ifaddr := [mkif eth0 AF_INET [10; 0; 0; 1]; mkif (ascii_text "lo") AF_INET [127; 0; 0; 1]].
Definition web : conf_srec := mksrec None (Some (ascii_text "Web")) 80 None (Some (ascii_text "web.local")) [ascii_text "path=/"].
Definition shell : conf_srec := mksrec (Some (ascii_text "_ssh._tcp")) None 22 None None [].
Definition files : list conf_srec := [web; shell].
Definition when : env := mkenv (1, 0) 0 (Some cards) (fun _ => false).
Definition fresh : daemon := mdnsd_new (1, 0) 1 1000.
Definition loaded (l : list conf_srec) : daemon := match load_files fresh when eth0 gate l with Ok d => d | _ => fresh end.
Definition probing : list (tv * op) := [((1, 0), OOut); ((1, 250000), OOut); ((1, 500000), OOut); ((1, 750000), OOut)].
Definition seeking : daemon := story 1400 [((1, 0), OQuery (service_type web) QTYPE_PTR (Some 7%nat))].
Definition hears (l : list conf_srec) : option (bool * bool * list (nat * option (list Z))) :=
  match step (fst (played (loaded l) probing)) (at_ (2, 0)) OOut with
  | Ok (_, RMsg m _) =>
      match process_in seeking [(at_ (2, 0), Datagram (snd (packet_of m)) peer)] with
      | Ok (d, 0) => Some (o_qr m, (o_id m =? 0) && (12 + sum (map item_size (items (o_calls m))) <=? 4096), map (fun p => (fst p, a_rdname (snd p))) (told (Q d)))
      | _ => None
      end
  | _ => None
  end.
Definition local_name (l : list string) : list label := map ascii_text l ++ [local_label].
Example C114_case : reach fresh /\ (forall r X, ~ record fresh r X) /\ well_named gate files /\ apart gate files /\ carried cards eth0 gate files /\
  load_files fresh when eth0 gate files = Ok (loaded files) /\ history (loaded files) (recorded (loaded files) probing) (fst (played (loaded files) probing)) /\
  serving (recorded (loaded files) probing) /\ List.length (recorded (loaded files) probing) = 4%nat /\
  hears files = Some (true, true, [(7%nat, Some (instance gate web))]) /\
  (forall s, In s files -> sum (map (fun t => len t + 1) (s_txt s)) <= 2660) /\ (let d := fst (played (loaded files) probing) in (frame d, class d, uans (R d))) = (1000, 1, []).
Proof.
  split; [apply reach_new; cbn; lia|]. split; [intros r X E; discriminate E|]. split; [apply well_named_by; vm_compute; reflexivity|]. split; [apply apart_by; vm_compute; reflexivity|].
  split; [|split; [vm_compute; reflexivity|split; [apply recorded_history|split; [apply serving_by; repeat constructor|split; [vm_compute; reflexivity|split; [vm_compute; reflexivity|split; [intros s [<-|[<-|[]]]; vm_compute; discriminate|vm_compute; reflexivity]]]]]]].
  constructor.
  - assert (G : Forall good_name (flat_map (names_of gate) files)).
    { change (flat_map (names_of gate) files) with (map (fun l => dotted (local_name l)) [["_http"; "_tcp"]; ["Web"; "_http"; "_tcp"]; ["gate"]; ["web"]; ["_ssh"; "_tcp"]; ["gate"; "_ssh"; "_tcp"]; ["gate"]]%string).
      apply Forall_forall. intros n J. apply in_map_iff in J as (l & <- & J). apply good_by. revert l J. apply Forall_forall. repeat constructor; vm_compute; reflexivity. }
    rewrite Forall_forall in G. intros s n Is J. apply G. apply in_flat_map. exists s. auto.
  - intros s t [<-|[<-|[]]] J; [|destruct J]. destruct J as [<-|[]]. unfold byte_list. vm_compute. repeat constructor; discriminate.
  - intros s [<-|[<-|[]]]; vm_compute; reflexivity.
  - intros ip (i & [<-|[<-|[]]] & N & _ & <-); [|discriminate N]. split; [reflexivity|]. split; [repeat constructor; discriminate|]. exists 10. split; [left; reflexivity|discriminate].
  - intros ip (i & [<-|[<-|[]]] & _ & F & _); discriminate F.
Qed.

(* Without names that DNS can carry it fails, also for the other services: with
   a third service whose name has 64 bytes, the host that seeks web services
   learns of none, although the packet is sent and its record is in it. *)
Definition long : conf_srec := mksrec None (Some (repeat 97 64)) 8080 None None [].
Theorem C114_refuted : exists hostname l d1 d d' m n d2', well_named hostname l /\ apart hostname l /\ In web l /\ (forall n, In n (names_of hostname web) -> good_name n) /\
  load_files fresh when eth0 hostname l = Ok d1 /\ d = fst (played d1 probing) /\ step d (at_ (2, 0)) OOut = Ok (d', RMsg m n) /\ o_qr m = true /\
  says m (IRecord SAn (service_type web) QTYPE_PTR 1 120 [MName (instance hostname web)]) /\
  process_in seeking [(at_ (2, 0), Datagram (snd (packet_of m)) peer)] = Ok (d2', 0) /\ told (Q d2') = [] /\ forall c, ~ cache_holds d2' c.
Proof.
  assert (B : match load_files fresh when eth0 gate [long; web; shell] with
    | Ok d1 => match step (fst (played d1 probing)) (at_ (2, 0)) OOut with
      | Ok (_, RMsg m _) => match process_in seeking [(at_ (2, 0), Datagram (snd (packet_of m)) peer)] with
        | Ok (d2, r) => Some (r, o_qr m, nth_error (items (o_calls m)) 9, told (Q d2), concat (cache (Q d2)))
        | _ => None end
      | _ => None end
    | _ => None end = Some (0, true, Some (IRecord SAn (service_type web) QTYPE_PTR 1 120 [MName (instance gate web)]), [], [])) by (vm_compute; reflexivity).
  destruct (load_files fresh when eth0 gate [long; web; shell]) as [d1| | |] eqn:E1; try discriminate B.
  destruct (step (fst (played d1 probing)) (at_ (2, 0)) OOut) as [[d' [| |m n| |]]| | |] eqn:E2; try discriminate B.
  destruct (process_in seeking [(at_ (2, 0), Datagram (snd (packet_of m)) peer)]) as [[d2 r]| | |] eqn:E3; try discriminate B.
  injection B as B1 B2 B3 B4 B5. exists gate, [long; web; shell], d1, (fst (played d1 probing)), d', m, n, d2.
  split; [apply well_named_by; vm_compute; reflexivity|]. split; [apply apart_by; vm_compute; reflexivity|]. split; [right; left; reflexivity|].
  split; [intros k J; apply (ca_names _ _ _ _ (proj1 (proj2 (proj2 (proj2 (proj2 C114_case))))) web k (or_introl eq_refl) J)|]. split; [exact E1|]. split; [reflexivity|]. split; [exact E2|]. split; [exact B2|].
  split; [exact (nth_error_In _ 9 B3)|]. split; [rewrite E3, B1; reflexivity|]. split; [exact B4|]. intros c J. unfold cache_holds in J. rewrite B5 in J. destruct J.
Qed.
Print Assumptions C114_refuted.
