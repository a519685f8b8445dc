(* mquery: C80 and C87, for sessions that begin as those of mquery do.
   Vocabulary: SpecMquery.v, SpecMqTypes.v.  Model: Mquery.v, Reent.v. *)
From Verif Require Import Base SpecDns Wire Rec Qry Out In Api Reent SpecDaemon SpecCache SpecReent Step SpecStep Scenario Mquery SpecMquery SpecMqTypes ScenarioMq ScenarioMqTypes FactsMq9 PropMquery.

(* ---- C80 ---- *)
(* Where an instance is and what its attributes are is asked for whenever a name
   other than the list of service types points to it.  The instances of a
   service type on the list are asked for unless somebody named the list itself
   a service type or an instance (C80_refuted). *)
Theorem C80_types : forall ntop terminate wait start s, (forall f a, zlen (ntop f a) < INET6_ADDRSTRLEN) ->
  session_of (ans_dev ntop) no_tables terminate wait start DISCO_NAME QTYPE_PTR s ->
  let T := told (Q (l_daemon s)) in
  forall c n, In c T -> there c -> a_type (snd c) = QTYPE_PTR -> a_rdname (snd c) = Some n -> n <> [] ->
    (a_name (snd c) <> DISCO_NAME -> looked_up (l_daemon s) n QTYPE_SRV /\ looked_up (l_daemon s) n QTYPE_TXT) /\
    (a_name (snd c) = DISCO_NAME -> ~ pointed_to DISCO_NAME T -> looked_up (l_daemon s) n QTYPE_PTR).
Proof. exact session_types. Qed.
Print Assumptions C80_types.
Lemma scan_session_of : session_of (ans_dev as_is) no_tables true 0 1 DISCO_NAME QTYPE_PTR scan.
Proof. exact (ran_session_of _ (ans_dev as_is) no_tables true 0 1 _ eq_refl). Qed.
(* A service type and an instance of it were found *)
Example C80_case_types : session_of (ans_dev as_is) no_tables true 0 1 DISCO_NAME QTYPE_PTR scan /\ ~ pointed_to DISCO_NAME (told (Q (l_daemon scan))) /\
  map (fun c => (a_name (snd c), a_type (snd c), a_rdname (snd c), negb (a_ttl (snd c) =? 0))) (firstn 2 (told (Q (l_daemon scan)))) = [(DISCO_NAME, QTYPE_PTR, Some http, true); (http, QTYPE_PTR, Some web, true)].
Proof.
  split; [exact scan_session_of|]. split; [|vm_compute; reflexivity]. intros (c & I & _ & E).
  assert (G : forallb (fun c => match a_rdname (snd c) with Some n => negb (bytes_eqb n DISCO_NAME) | None => true end) (told (Q (l_daemon scan))) = true) by (vm_compute; reflexivity).
  rewrite forallb_forall in G. specialize (G c I). rewrite E in G. discriminate G.
Qed.
(* Nothing else is asked for. *)
Theorem C80_only : forall ntop terminate wait start s, session_of (ans_dev ntop) no_tables terminate wait start DISCO_NAME QTYPE_PTR s ->
  forall x, registered (l_daemon s) x -> is_for x DISCO_NAME QTYPE_PTR \/ followed (q_nm x) (q_ty x) (told (Q (l_daemon s))).
Proof. exact session_follows. Qed.
Print Assumptions C80_only.
(* The list of service types is asked for as long as mquery -D runs. *)
Theorem C80_asks : forall ntop terminate wait start s, session_of (ans_dev ntop) no_tables terminate wait start DISCO_NAME QTYPE_PTR s -> looked_up (l_daemon s) DISCO_NAME QTYPE_PTR.
Proof. exact dev_kept. Qed.
Print Assumptions C80_asks.
(* The queries of the scan above *)
Definition queries_of {A} (s : loop A) : list (list Z * Z) := flat_map (fun q => match qh (Q (l_daemon s)) q with Some x => [(q_nm x, q_ty x)] | None => [] end) (qlist (Q (l_daemon s))).
Example C80_case_only : session_of (ans_dev as_is) no_tables true 0 1 DISCO_NAME QTYPE_PTR scan /\
  queries_of scan = [(nm 97, QTYPE_AAAA); (nm 97, QTYPE_A); (web, QTYPE_TXT); (web, QTYPE_SRV); (http, QTYPE_PTR); (DISCO_NAME, QTYPE_PTR)].
Proof. split; [exact scan_session_of|]. vm_compute. reflexivity. Qed.

(* ---- C87 ---- *)
(* mquery for a name asks for the pointers of this name and of the names found under it,
   and for nothing else; for all of them unless the name is found under itself. *)
Theorem C87_browses : forall ntop terminate wait start name s, session_of (ans ntop false) [] terminate wait start name QTYPE_PTR s ->
  let T := told (Q (l_daemon s)) in
  (forall x, registered (l_daemon s) x -> q_ty x = QTYPE_PTR /\ (q_nm x = name \/ listed_under name (q_nm x) T)) /\
  (forall n, listed_under name n T -> ~ listed_under name name T -> looked_up (l_daemon s) n QTYPE_PTR).
Proof. exact session_lists. Qed.
Print Assumptions C87_browses.
Definition listing : loop (list printed) := ran (ans as_is false) [] false 0 (1, 0) [((1, 0), []); ((2, 0), [told_by (ptr DISCO_NAME http)]); ((2, 5), [told_by (ptr http web)])].
Lemma listing_session : session_of (ans as_is false) [] false 0 1 DISCO_NAME QTYPE_PTR listing.
Proof. exact (ran_session_of _ (ans as_is false) [] false 0 1 _ eq_refl). Qed.
Example C87_case_browses : session_of (ans as_is false) [] false 0 1 DISCO_NAME QTYPE_PTR listing /\ listed_under DISCO_NAME http (told (Q (l_daemon listing))) /\ ~ listed_under DISCO_NAME DISCO_NAME (told (Q (l_daemon listing))) /\
  listed_under http web (told (Q (l_daemon listing))) /\ queries_of listing = [(http, QTYPE_PTR); (DISCO_NAME, QTYPE_PTR)].
Proof.
  split; [exact listing_session|].
  assert (E : exists c1 c2, told (Q (l_daemon listing)) = [c1; c2] /\ a_type (snd c1) = QTYPE_PTR /\ a_name (snd c1) = DISCO_NAME /\ a_rdname (snd c1) = Some http /\ a_type (snd c2) = QTYPE_PTR /\ a_name (snd c2) = http /\ a_rdname (snd c2) = Some web).
  { eexists _, _. split; [vm_compute; reflexivity|]. repeat split. }
  destruct E as (c1 & c2 & E & A1 & A2 & A3 & B1 & B2 & B3). rewrite E. split; [exists c1; split; [left; reflexivity|auto]|]. split; [|split; [exists c2; split; [right; left; reflexivity|auto]|vm_compute; reflexivity]].
  intros (c & [<-|[<-|[]]] & _ & N & R); [rewrite A3 in R; discriminate R|rewrite B2 in N; discriminate N].
Qed.
(* A name under itself stops it *)
Definition itself : loop (list printed) := ran (ans as_is false) [] false 0 (1, 0) [((1, 0), []); ((2, 0), [told_by (ptr DISCO_NAME DISCO_NAME)]); ((2, 5), [told_by (ptr DISCO_NAME http)])].
Theorem C87_refuted_itself : exists ntop s, session_of (ans ntop false) [] false 0 1 DISCO_NAME QTYPE_PTR s /\ listed_under DISCO_NAME http (told (Q (l_daemon s))) /\ ~ looked_up (l_daemon s) http QTYPE_PTR.
Proof.
  exists as_is, itself. split; [exact (ran_session_of _ (ans as_is false) [] false 0 1 _ eq_refl)|].
  assert (E : exists c1 c2, told (Q (l_daemon itself)) = [c1; c2] /\ a_type (snd c2) = QTYPE_PTR /\ a_name (snd c2) = DISCO_NAME /\ a_rdname (snd c2) = Some http).
  { eexists _, _. split; [vm_compute; reflexivity|]. repeat split. }
  destruct E as (c1 & c2 & E & B1 & B2 & B3). rewrite E. split; [exists c2; split; [right; left; reflexivity|auto]|]. intros (y & (q & I & Ey) & Ny & Yy).
  assert (G : forallb (fun q => match qh (Q (l_daemon itself)) q with Some x => negb (bytes_eqb (q_nm x) http && (q_ty x =? QTYPE_PTR)) | None => true end) (qlist (Q (l_daemon itself))) = true) by (vm_compute; reflexivity).
  rewrite forallb_forall in G. specialize (G q I). rewrite Ey, Ny, Yy in G. discriminate G.
Qed.
Print Assumptions C87_refuted_itself.
(* The query given is there as long as mquery runs, with -s or without. *)
Theorem C87_asks : forall ntop simple terminate wait start name type s, session_of (ans ntop simple) [] terminate wait start name type s -> looked_up (l_daemon s) name type.
Proof. exact ans_kept. Qed.
Print Assumptions C87_asks.
