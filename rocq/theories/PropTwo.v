(* Property theorems C108 and C109, and one more for C31: two hosts.
   Vocabulary: SpecDns.v, SpecDaemon.v, SpecCache.v, SpecLife.v, SpecHear.v, SpecAnswer.v, SpecTwo.v. *)
From Verif Require Import Base SpecDns Hash Wire Rec Qry Out In Api SpecDaemon SpecCache SpecLife Step SpecStep SpecHear SpecAnswer SpecTwo Scenario ScenarioTwo FactsCache FactsTwo PropLife.

(* ---- C108: what one host asks for and the other has published is found ---- *)
(* B sends a question, A receives the packet.  What A sends 119 microseconds
   later or after that goes to the group, and when B receives it, its callback is
   told of A's record.  B may have done anything in between. *)
Theorem C108_found : forall B eB B1 mB kB tldB n ty A eA fromB r X, reach B -> legal B eB OOut -> step B eB OOut = Ok (B1, RMsg mB kB) -> sendable tldB mB -> o_qr mB = false ->
  says mB (IQuestion n ty (class A)) -> (forall ty' cl, ~ says mB (IQuestion DISCO_NAME ty' cl)) ->
  reach A -> 0 <= fst (e_now eA) -> 0 <= snd (e_now eA) -> is_shutdown A = false -> foreign A eA fromB -> port fromB = 5353 -> uans (R A) = [] -> disco A = false ->
  record A r X -> a_name (rr X) = n -> a_type (rr X) = ty -> unique X = 0 \/ unique X = 5 -> 4 <= tries X -> ~ waits A Pause r -> ~ knows (heard mB) (mkquestion n ty (class A)) X ->
  exists A1, process_in A [(eA, Datagram (snd (packet_of mB)) fromB)] = Ok (A1, 0) /\ reach A1 /\
  forall eA' A2 mA kA tldA, legal A1 eA' OOut -> step A1 eA' OOut = Ok (A2, RMsg mA kA) -> micros (e_now eA) + 119 <= micros (e_now eA') -> ~ full A1 mA -> sendable tldA mA ->
    o_to mA = group (d_family A) /\
    (a_ttl (rr X) <> 0 -> set_by_type (rr X) ->
     forall B2 e2 fromA y, reach B2 -> 0 <= fst (e_now e2) -> is_shutdown B2 = false -> foreign B2 e2 fromA -> (forall k, e_cb e2 k = false) -> registered B2 y -> is_for y n ty ->
       (forall c, cache_holds B2 c -> ~ same_content (c_rr c) (rr X)) ->
       exists B3 T v, process_in B2 [(e2, Datagram (snd (packet_of mA)) fromA)] = Ok (B3, 0) /\ reach B3 /\ told (Q B3) = told (Q B2) ++ T /\ In (q_cb y, v) T /\ same_content v (rr X) /\ fst (e_now e2) < a_ttl v).
Proof. exact found. Qed.
Print Assumptions C108_found.

(* The text of host 1 is asked for by host 2. *)
Definition local : label := [108; 111; 99; 97; 108].
Lemma local_name : forall c, 0 < c < 256 -> c <> 46 -> legal_name [[c]; local] /\ ends_only_in local [[c]; local].
Proof.
  intros c C1 C2. split; [split; [discriminate|]; split|].
  - repeat constructor; try lia; vm_compute; discriminate.
  - vm_compute. discriminate.
  - exists [[c]]. split; [reflexivity|]. intros [K|[]]. discriminate.
Qed.
Definition asker : daemon := story 1400 [((2, 0), OQuery (nm 98) QTYPE_TXT (Some 7%nat))].
Definition question_msg : omsg := mkomsg (mcast AF_INET) 0 false [MQd (nm 98) QTYPE_TXT 1].
Definition texted : daemon := story 1400 ([((1, 0), OShared (nm 98) QTYPE_TXT 60); ((1, 0), OSetRaw 0 [1; 98])] ++ map (fun t => ((t, 0), OOut)) [1; 3; 5; 7]).
Definition answer_msg : omsg := mkomsg (mcast AF_INET) 0 true [MRr SAn (nm 98) QTYPE_TXT 1 60; MRaw [1; 98]].
Lemma question_sendable : sendable local question_msg.
Proof.
  split; [vm_compute; split; [discriminate|reflexivity]|]. split; [|left; vm_compute; discriminate]. intros i [<-|[]]. left. exists (mkquest [[98]; local] 16 1). split; [reflexivity|].
  split; [split; vm_compute; split; try discriminate; reflexivity|]. apply local_name; lia.
Qed.
Lemma text_sendable : forall ttl, 0 <= ttl < 100 -> sendable local (mkomsg (mcast AF_INET) 0 true [MRr SAn (nm 98) QTYPE_TXT 1 ttl; MRaw [1; 98]]).
Proof.
  intros ttl Tt. split; [vm_compute; split; [discriminate|reflexivity]|]. split; [|left; vm_compute; discriminate]. intros i [<-|[]]. right. exists SAn, (mkrr [[98]; local] 16 1 ttl (RRaw [1; 98])). split; [reflexivity|]. split.
  - split; [vm_compute; split; [discriminate|reflexivity]|]. split; [vm_compute; split; [discriminate|reflexivity]|]. split; [unfold u32; cbn [rttl]; lia|].
    cbn [data_fits rtype data]. split; [unfold byte_list; repeat constructor; lia|]. split; [vm_compute; reflexivity|]. split; [cbn [In]; lia|split; discriminate].
  - intros n J. cbn [rr_names owner data data_names In] in J. destruct J as [<-|[]]. apply local_name; lia.
Qed.
Example C108_case : legal asker (at_ (9, 0)) OOut /\ (exists B1 k, step asker (at_ (9, 0)) OOut = Ok (B1, RMsg question_msg k)) /\ sendable local question_msg /\
  foreign texted (at_ (9, 100)) addr2 /\ uans (R texted) = [] /\ disco texted = false /\ is_shutdown texted = false /\ (forall r, idle texted r) /\
  (exists X, record texted 0 X /\ a_name (rr X) = nm 98 /\ a_type (rr X) = QTYPE_TXT /\ unique X = 0 /\ tries X = 4 /\ ~ knows (heard question_msg) (mkquestion (nm 98) QTYPE_TXT 1) X) /\
  sendable local answer_msg /\ foreign asker (at_ (9, 300)) addr1 /\
  match process_in texted [(at_ (9, 100), Datagram (snd (packet_of question_msg)) addr2)] with
  | Ok (A1, 0) => match step A1 (at_ (9, 220)) OOut with
                  | Ok (_, RMsg m k) => m = answer_msg /\ k = 1 /\
                      match process_in asker [(at_ (9, 300), Datagram (snd (packet_of m)) addr1)] with Ok (B3, 0) => map (fun p => (fst p, a_rdata (snd p))) (told (Q B3)) = [(7%nat, Some [1; 98])] | _ => False end
                  | _ => False end
  | _ => False end.
Proof.
  split; [apply legalb_ok; vm_compute; reflexivity|]. split; [eexists; eexists; vm_compute; reflexivity|]. split; [exact question_sendable|].
  split; [split; [vm_compute; discriminate|intros l [K|K]; vm_compute in K; discriminate]|]. split; [vm_compute; reflexivity|]. split; [vm_compute; reflexivity|]. split; [vm_compute; reflexivity|]. split; [apply idle_by; vm_compute; reflexivity|].
  split; [eexists; split; [unfold record; vm_compute; reflexivity|]; repeat split; intros (a & [] & _)|]. split; [apply text_sendable; lia|].
  split; [split; [vm_compute; discriminate|intros l [K|K]; vm_compute in K; discriminate]|]. vm_compute. repeat split.
Qed.

(* ---- C109: what one host withdraws the other forgets ---- *)
(* A sends a goodbye.  When B receives it, B's cache no longer holds the record,
   and callbacks for it are told with TTL 0. *)
Theorem C109_forgotten : forall A eA A1 mA kA tld X, reach A -> legal A eA OOut -> uans (R A) = [] -> step A eA OOut = Ok (A1, RMsg mA kA) -> o_qr mA = true -> sendable tld mA ->
  shows mA X -> a_ttl (rr X) = 0 -> (forall Y, shows mA Y -> set_by_type (rr Y) /\ (same_content (rr Y) (rr X) -> a_ttl (rr Y) = 0)) ->
  forall t0 cls frm l B eB fromA, 0 <= fst t0 -> history (mdnsd_new t0 cls frm) l B -> asks_exact l -> 0 <= fst (e_now eB) -> is_shutdown B = false -> foreign B eB fromA ->
  exists B1 T, process_in B [(eB, Datagram (snd (packet_of mA)) fromA)] = Ok (B1, 0) /\ reach B1 /\ told (Q B1) = told (Q B) ++ T /\
    (forall c, cache_holds B1 c -> ~ same_content (c_rr c) (rr X)) /\
    (forall c y y', cache_holds B c -> same_content (c_rr c) (rr X) -> registered B y -> is_for y (a_name (rr X)) (a_type (rr X)) -> registered B1 y' -> is_for y' (a_name (rr X)) (a_type (rr X)) ->
       In (q_cb y, set_ttl (c_rr c) 0) T).
Proof. exact forgotten. Qed.
Print Assumptions C109_forgotten.

(* Host 1 withdraws its text, which host 2 knows. *)
Definition withdrawing : daemon := fst (played texted [((10, 0), ODone 0)]).
Definition bye_msg : omsg := mkomsg (mcast AF_INET) 0 true [MRr SAn (nm 98) QTYPE_TXT 1 0; MRaw [1; 98]].
Definition knowing_calls : list (tv * op) := [((2, 0), OQuery (nm 98) QTYPE_TXT (Some 7%nat)); ((9, 300), OIn (heard answer_msg) addr1)].
Example C109_case : reach withdrawing /\ legal withdrawing (at_ (11, 0)) OOut /\ (exists A1 k, step withdrawing (at_ (11, 0)) OOut = Ok (A1, RMsg bye_msg k)) /\ uans (R withdrawing) = [] /\ sendable local bye_msg /\
  (exists X, record withdrawing 0 X /\ shows bye_msg X /\ a_ttl (rr X) = 0 /\ exists c, cache_holds (story 1400 knowing_calls) c /\ same_content (c_rr c) (rr X)) /\
  (forall Y, shows bye_msg Y -> set_by_type (rr Y) /\ a_ttl (rr Y) = 0) /\ asks_exact (annals 1400 knowing_calls) /\ foreign (story 1400 knowing_calls) (at_ (11, 300)) addr1 /\
  match process_in (story 1400 knowing_calls) [(at_ (11, 300), Datagram (snd (packet_of bye_msg)) addr1)] with
  | Ok (B1, 0) => concat (cache (Q B1)) = [] /\ map (fun p => (fst p, a_ttl (snd p))) (told (Q B1)) = [(7%nat, 47); (7%nat, 0)]
  | _ => False end.
Proof.
  split; [apply played_reach, story_reach|]. split; [apply legalb_ok; vm_compute; reflexivity|]. split; [eexists; eexists; vm_compute; reflexivity|]. split; [vm_compute; reflexivity|]. split; [apply text_sendable; lia|].
  split.
  { eexists. split; [unfold record; vm_compute; reflexivity|]. split; [exists 1; left; reflexivity|]. split; [reflexivity|]. eexists. split; [vm_compute; left; reflexivity|]. vm_compute. repeat split; intros; discriminate. }
  split.
  { intros Y (cl & [K|[]]). injection K as K1 K2 K3 K4 K5. split; [intros [T|T]; rewrite T in K2; discriminate|congruence]. }
  split; [intros ev n cb I; unfold annals, knowing_calls in I; vm_compute in I; destruct I as [<-|[<-|[]]]; vm_compute; discriminate|].
  split; [split; [vm_compute; discriminate|intros l [K|K]; vm_compute in K; discriminate]|]. vm_compute. repeat split.
Qed.

(* ---- C31: two hosts end up with the same name ---- *)
(* Host 2 starts to use a name that host 1 has verified and announced, with
   another address.  They hear every packet of each other, host 1 answers each
   probe.  In the end both have verified and announced the name, no conflict
   callback was called, and each has the address of the other in its cache. *)
Definition settle (first : bool) (t : Z) : list (bool * tv * op) := map (fun k => (first, (t + k, 0), OOut)) [0; 1; 2; 3; 5; 7; 9; 11].
Definition rivals : list (bool * tv * op) :=
  [(true, (1, 0), OUnique (nm 97) QTYPE_A 120 (Some 4%nat)); (true, (1, 0), OSetIp 0 [10; 0; 0; 1])] ++ settle true 1 ++
  [(false, (20, 0), OUnique (nm 97) QTYPE_A 120 (Some 4%nat)); (false, (20, 0), OSetIp 0 [10; 0; 0; 2])] ++
  [(false, (20, 0), OOut); (true, (20, 500), OOut); (false, (21, 0), OOut); (true, (21, 500), OOut); (false, (22, 0), OOut); (true, (22, 500), OOut)] ++ settle false 23.
Theorem C31_refuted_duel : exists a b X Y, together addr1 addr2 a b /\ record a 0 X /\ record b 0 Y /\ a_name (rr X) = a_name (rr Y) /\ a_type (rr X) = QTYPE_A /\ a_type (rr Y) = QTYPE_A /\ a_ip (rr X) <> a_ip (rr Y) /\
  unique X = 5 /\ unique Y = 5 /\ tries X = 4 /\ tries Y = 4 /\ (forall r, idle a r) /\ (forall r, idle b r) /\ conflicts (R a) = [] /\ conflicts (R b) = [] /\
  (exists c, cache_holds a c /\ same_content (c_rr c) (rr Y)) /\ (exists c, cache_holds b c /\ same_content (c_rr c) (rr X)).
Proof.
  exists (fst (duet rivals)), (snd (duet rivals)). eexists. eexists. split; [apply duet_together|]. split; [unfold record; vm_compute; reflexivity|]. split; [unfold record; vm_compute; reflexivity|].
  split; [reflexivity|]. split; [reflexivity|]. split; [reflexivity|]. split; [discriminate|]. do 4 (split; [reflexivity|]). split; [apply idle_by; vm_compute; reflexivity|]. split; [apply idle_by; vm_compute; reflexivity|].
  split; [vm_compute; reflexivity|]. split; [vm_compute; reflexivity|]. split; eexists; (split; [vm_compute; left; reflexivity|]; apply akey_iff; vm_compute; reflexivity).
Qed.
Print Assumptions C31_refuted_duel.
