(* Property theorems C69 and C70: from one host to another.
   Vocabulary: SpecDns.v, SpecDaemon.v, SpecCache.v, SpecStep.v, SpecHear.v. *)
From Verif Require Import Base SpecDns Hash Wire WireSafe Rec Qry Out In Api SpecDaemon SpecCache Scenario Step SpecStep SpecHear FactsHear FactsKnow.

(* ---- C69 ---- *)
(* Whatever mdnsd_out builds, a receiver parses: the same questions and records,
   in the same sections and order.  Conditions: names and data that DNS allows
   and that compression keeps (see C03), at most 4096 bytes
   without compression or 1435 with it. *)
Theorem C69_parses : forall d e d' m n tld, reach d -> legal d e OOut -> step d e OOut = Ok (d', RMsg m n) -> sendable tld m ->
  bytes (snd (packet_of m)) /\ 0 < zlen (snd (packet_of m)) <= 4096 /\
  forall b, bytebuf b -> zlen (snd (packet_of m)) <= b_size b -> (forall i, 0 <= i < zlen (snd (packet_of m)) -> b_at b i = zget (snd (packet_of m)) i) ->
  exists s p, message_parse b MSG_BLOCK = Ok (heard m, s, p).
Proof. exact message_heard. Qed.
Print Assumptions C69_parses.

Theorem C69_delivered : forall d e d' m n tld, reach d -> legal d e OOut -> step d e OOut = Ok (d', RMsg m n) -> sendable tld m ->
  forall d2 e2 from, process_in d2 [(e2, Datagram (snd (packet_of m)) from)] = bind (mdnsd_in d2 e2 (heard m) from) (fun x => Ok (fst x, 0)).
Proof. exact packet_delivered. Qed.
Print Assumptions C69_delivered.

(* A service, its text and an address, announced together *)
Definition offering : daemon := story 1400
  [((1, 0), OShared (nm 97) QTYPE_PTR 120); ((1, 0), OSetHost 0 (nm 98)); ((1, 0), OShared (nm 98) QTYPE_TXT 60); ((1, 0), OSetRaw 1 [3; 97; 61; 98]); ((1, 0), OShared (nm 99) QTYPE_A 60); ((1, 0), OSetIp 2 [10; 0; 0; 9])].
Definition local : label := [108; 111; 99; 97; 108].
Definition offered : list SpecDns.rr :=
  [mkrr [[99]; local] 1 1 60 (RAddr4 [10; 0; 0; 9]); mkrr [[98]; local] 16 1 60 (RRaw [3; 97; 61; 98]); mkrr [[97]; local] 12 1 120 (RName [[98]; local])].
Definition offer : omsg := mkomsg (mcast AF_INET) 0 true (flat_map (fun r => MRr SAn (dotted (owner r)) (rtype r) (rclass r) (rttl r) :: [data_of (data r)]) offered).

Example C69_case : reach offering /\ legal offering (at_ (1, 0)) OOut /\ (exists d', step offering (at_ (1, 0)) OOut = Ok (d', RMsg offer 3)) /\ sendable local offer /\
  snd (packet_of offer) = [0; 0; 132; 0; 0; 0; 0; 3; 0; 0; 0; 0; 1; 99; 5; 108; 111; 99; 97; 108; 0; 0; 1; 0; 1; 0; 0; 0; 60; 0; 4; 10; 0; 0; 9; 1; 98; 192; 14; 0; 16; 0; 1; 0; 0; 0; 60; 0; 4; 3; 97; 61; 98;
    1; 97; 192; 14; 0; 12; 0; 1; 0; 0; 0; 120; 0; 4; 1; 98; 192; 14].
Proof.
  split; [apply story_reach|]. split; [apply legalb_ok; vm_compute; reflexivity|]. split; [eexists; vm_compute; reflexivity|]. split; [|vm_compute; reflexivity].
  split; [vm_compute; split; [discriminate|reflexivity]|]. split; [|left; vm_compute; discriminate].
  assert (Nm : forall c, 0 < c < 256 -> c <> 46 -> legal_name [[c]; local] /\ ends_only_in local [[c]; local]).
  { intros c C1 C2. split; [split; [discriminate|]; split|].
    - repeat constructor; try lia; vm_compute; discriminate.
    - vm_compute. discriminate.
    - exists [[c]]. split; [reflexivity|]. intros [K|[]]. discriminate. }
  intros i I. right. exists SAn. assert (F : Forall (fun r => legal_rr r /\ forall n, In n (rr_names r) -> legal_name n /\ ends_only_in local n) offered).
  { repeat apply Forall_cons; [..|constructor]; (split; [|intros n J; cbn [rr_names owner data data_names In] in J; repeat (destruct J as [<-|J]; [apply Nm; lia|]); destruct J]);
      (split; [vm_compute; split; [discriminate|reflexivity]|]; split; [vm_compute; split; [discriminate|reflexivity]|]; split; [vm_compute; split; [discriminate|reflexivity]|]).
    - cbn [data_fits rtype data]. split; [reflexivity|]. split; [reflexivity|]. unfold byte_list. repeat constructor; lia.
    - cbn [data_fits rtype data]. split; [unfold byte_list; repeat constructor; lia|]. split; [vm_compute; reflexivity|]. split; [cbn [In]; lia|split; discriminate].
    - cbn [data_fits rtype data In]. tauto. }
  assert (Is : items (o_calls offer) = map (item_of SAn) offered) by reflexivity. unfold says in I. rewrite Is in I. apply in_map_iff in I as (r & <- & J). exists r. split; [reflexivity|]. rewrite Forall_forall in F. exact (F r J).
Qed.

(* ---- C70 ---- *)
(* The records another host shows as answers are in the cache of a host that
   receives the packet, and its queries for them are told. *)
Theorem C70_known : forall d e d' m n tld, reach d -> legal d e OOut -> step d e OOut = Ok (d', RMsg m n) -> sendable tld m -> o_qr m = true ->
  forall d2 e2 from, reach d2 -> 0 <= fst (e_now e2) -> is_shutdown d2 = false -> foreign d2 e2 from ->
  exists d2', process_in d2 [(e2, Datagram (snd (packet_of m)) from)] = Ok (d2', 0) /\ reach d2' /\
    (forall X, gives (class d2) m X -> a_ttl (rr X) <> 0 -> set_by_type (rr X) -> exists c, cache_holds d2' c /\ same_content (c_rr c) (rr X) /\ fst (e_now e2) < a_ttl (c_rr c)) /\
    (forall X y, shows m X -> a_ttl (rr X) <> 0 -> set_by_type (rr X) -> (forall k, e_cb e2 k = false) -> registered d2 y -> is_for y (a_name (rr X)) (a_type (rr X)) ->
       (forall c, cache_holds d2 c -> ~ same_content (c_rr c) (rr X)) -> exists T v, told (Q d2') = told (Q d2) ++ T /\ In (q_cb y, v) T /\ same_content v (rr X) /\ fst (e_now e2) < a_ttl v).
Proof. exact delivered. Qed.
Print Assumptions C70_known.

(* The offer of C69_case and a host that asks for the service *)
Definition seeking : daemon := story 1400 [((5, 0), OQuery (nm 97) QTYPE_PTR (Some 7%nat))].
Example C70_case : reach seeking /\ is_shutdown seeking = false /\ foreign seeking (at_ (6, 0)) peer /\
  (exists X, record offering 0 X /\ shows offer X /\ gives (class seeking) offer X /\ a_ttl (rr X) <> 0 /\ set_by_type (rr X) /\ exists y, registered seeking y /\ is_for y (a_name (rr X)) (a_type (rr X))) /\
  exists d', process_in seeking [(at_ (6, 0), Datagram (snd (packet_of offer)) peer)] = Ok (d', 0) /\ map (fun p => (fst p, a_rdname (snd p))) (told (Q d')) = [(7%nat, Some (nm 98))].
Proof.
  split; [apply story_reach|]. split; [vm_compute; reflexivity|]. split; [split; [vm_compute; discriminate|intros l [K|K]; vm_compute in K; discriminate]|]. split.
  - eexists. split; [unfold record; vm_compute; reflexivity|]. split; [exists 1; unfold says; right; right; left; reflexivity|]. split; [|split; [discriminate|split; [intros [K|K]; discriminate K|]]].
    + exists 1, (map (item_of SAn) (firstn 2 offered)), []. split; [reflexivity|]. intros ? ? ? ? ? [].
    + eexists. split; [exists 0%nat; split; [vm_compute; auto|vm_compute; reflexivity]|split; vm_compute; reflexivity].
  - eexists. split; [vm_compute; reflexivity|]. vm_compute. reflexivity.
Qed.

(* "gives" cannot be dropped: of two unique records with the same name and type
   that are announced together, the receiver keeps only the last, because each
   flushes what came before it in the same message. *)
Definition two_unique : daemon := story 1400
  ([((1, 0), OUnique (nm 99) QTYPE_A 60 (Some 3%nat)); ((1, 0), OSetIp 0 [10; 0; 0; 8]); ((1, 0), OUnique (nm 99) QTYPE_A 60 (Some 3%nat)); ((1, 0), OSetIp 1 [10; 0; 0; 9])] ++ map (fun t => ((1, t), OOut)) [0; 250000; 500000; 750000]).
Theorem C70_refuted : exists d' m X d2', reach two_unique /\ reach seeking /\ step two_unique (at_ (2, 0)) OOut = Ok (d', RMsg m 2) /\ record two_unique 0 X /\ shows m X /\ a_ttl (rr X) <> 0 /\
  process_in seeking [(at_ (6, 0), Datagram (snd (packet_of m)) peer)] = Ok (d2', 0) /\ forall c, cache_holds d2' c -> ~ same_content (c_rr c) (rr X).
Proof.
  eexists. eexists. eexists. eexists. split; [apply story_reach|]. split; [apply story_reach|]. split; [vm_compute; reflexivity|]. split; [unfold record; vm_compute; reflexivity|].
  split; [exists 32769; left; reflexivity|]. split; [discriminate|]. split; [vm_compute; reflexivity|].
  intros c I. vm_compute in I. destruct I as [<-|[]]. intros (_ & _ & _ & _ & K & _). specialize (K eq_refl). discriminate K.
Qed.
Print Assumptions C70_refuted.
