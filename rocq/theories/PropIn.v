(* Property theorems C25-C28, C31 and C39: incoming packets.
   Vocabulary: SpecDaemon.v.  Model: In.v, Api.v. *)
From Verif Require Import Base Hash Wire Rec Qry Out In Api SpecDaemon Scenario FactsIn.

(* ---- C25 ---- *)
(* R: the records, queues, replies and reported conflicts; Q: queries, cache
   and reported answers *)
Theorem C25_own : forall d e m from, (own d from \/ exists l, snapshot d e = Some l /\ of_interface l from) ->
  exists d' n, step d e (OIn m from) = Ok (d', RInt n) /\ R d' = R d /\ Q d' = Q d /\ disco d' = disco d /\ received d' = received d.
Proof. exact own_ignored. Qed.
Print Assumptions C25_own.

(* A record being announced.  The same question is answered if it comes from
   another host. *)
Definition shop : list (tv * op) :=
  [((1, 0), OSetAddress [10; 0; 0; 1]); ((1, 0), OShared (nm 98) QTYPE_TXT 60); ((1, 0), OSetRaw 0 [1; 97])].
Definition shop_calm : list (tv * op) := shop ++ map (fun t => ((t, 0), OOut)) [2; 4; 6; 8; 10].
Definition knock : message := asking 5 [mkquestion (nm 98) QTYPE_TXT 1] [].
Definition two_faced : env := mkenv (2, 0) 0 (Some [mkif [101; 48] AF_INET [10; 0; 0; 1]; mkif [101; 49] AF_INET [10; 0; 0; 2]]) (fun _ => false).
Example C25_case :
  (forall h, In h [mkaddr AF_INET [10; 0; 0; 1] 40000; mkaddr AF_INET [10; 0; 0; 2] 40000] ->
    own (story 1400 shop) h \/ exists l, snapshot (story 1400 shop) two_faced = Some l /\ of_interface l h) /\
  map (fun h => match step (story 1400 shop) two_faced (OIn knock h) with Ok (d, _) => length (uans (R d)) | _ => 9%nat end)
    [mkaddr AF_INET [10; 0; 0; 1] 40000; mkaddr AF_INET [10; 0; 0; 2] 40000; stranger] = [0%nat; 0%nat; 1%nat].
Proof.
  split; [|vm_compute; reflexivity]. intros h [<-|[<-|[]]]; [left; vm_compute; reflexivity|right].
  eexists. split; [vm_compute; reflexivity|]. eexists. split; [right; left; reflexivity|]. split; reflexivity.
Qed.

(* ---- C26 ---- *)
(* Ever after: whatever is called between *)
Theorem C26_closed : forall d0 e0 d1 x d e m from, step d0 e0 OShutdown = Ok (d1, x) -> later d1 d -> step d e (OIn m from) = Ok (d, RInt 1).
Proof. exact closed_for_good. Qed.
Print Assumptions C26_closed.

Example C26_case : exists d1 x d2 y d3 z, step (story 1400 shop_calm) (at_ (20, 0)) OShutdown = Ok (d1, x) /\ step d1 (at_ (20, 0)) OOut = Ok (d2, y) /\
  step d2 (at_ (21, 0)) (OQuery (nm 97) 1 (Some 1%nat)) = Ok (d3, z) /\ later d1 d3 /\ step d3 (at_ (22, 0)) (OIn knock stranger) = Ok (d3, RInt 1).
Proof.
  destruct (step (story 1400 shop_calm) (at_ (20, 0)) OShutdown) as [[d1 x]| | |] eqn:E1; [|vm_compute in E1; discriminate..].
  destruct (step d1 (at_ (20, 0)) OOut) as [[d2 y]| | |] eqn:E2; [|vm_compute in E1; injection E1 as <- <-; vm_compute in E2; discriminate..].
  destruct (step d2 (at_ (21, 0)) (OQuery (nm 97) 1 (Some 1%nat))) as [[d3 z]| | |] eqn:E3; [|vm_compute in E1; injection E1 as <- <-; vm_compute in E2; injection E2 as <- <-; vm_compute in E3; discriminate..].
  exists d1, x, d2, y, d3, z. assert (L : later d1 d3) by (eapply later_call; [eapply later_call; [apply later_same|exact E2]|exact E3]).
  repeat (split; [first [exact E1|reflexivity|exact E3|exact E2|exact L]|]). eapply C26_closed; [exact E1|exact L].
Qed.

(* ---- C27 ---- *)
(* The cache and the queries are all of Q.  A record that is being probed may be
   lost to a conflict (C31). *)
Theorem C27_queries : forall d e m from d' x, reach d -> h_qr (m_header m) = 0 -> step d e (OIn m from) = Ok (d', x) ->
  Q d' = Q d /\
  (forall r X', record d' r X' -> exists X, record d r X /\ unchanged X' X) /\
  (forall r X, record d r X -> (exists X', record d' r X') \/ in_probing X) /\
  (forall k r, waits d' k r -> waits d k r \/ (k = Now \/ k = Pause) /\ exists q X, In q (m_qd m) /\ wants d q r X).
Proof. exact queries_frame. Qed.
Print Assumptions C27_queries.

Example C27_case : h_qr (m_header knock) = 0 /\ exists d' x, step (story 1400 shop_calm) (at_ (20, 0)) (OIn knock peer) = Ok (d', x) /\
  a_pause (R (story 1400 shop_calm)) = None /\ a_pause (R d') = Some 0%nat.
Proof. split; [reflexivity|]. eexists. eexists. split; [vm_compute; reflexivity|]. split; vm_compute; reflexivity. Qed.

(* ---- C28 ---- *)
(* Verified unique records are treated alike, only without delay. *)
Theorem C28_suppression : forall d e m from q r X, reach d -> legal d e (OIn m from) -> is_shutdown d = false -> foreign d e from -> h_qr (m_header m) = 0 -> m_qd m = [q] ->
  wants d q r X -> q_name q <> DISCO_NAME -> unique X = 0 \/ unique X = 5 -> 4 <= tries X -> idle d r ->
  exists d' n, step d e (OIn m from) = Ok (d', RInt n) /\
    ((exists a, In a (m_an m) /\ rr_name a = q_name q /\ rr_type a = q_type q /\ same_rr a (rr X)) /\ idle d' r \/
     (~ exists a, In a (m_an m) /\ rr_name a = q_name q /\ rr_type a = q_type q /\ same_rr a (rr X)) /\ waits d' (if unique X =? 0 then Pause else Now) r).
Proof. exact known_answers_suppress. Qed.
Print Assumptions C28_suppression.

Definition knowing (b : Z) : message := asking 5 [mkquestion (nm 98) QTYPE_TXT 1] [rr_txt (nm 99) 1 60 [1; 97]; rr_txt (nm 98) 1 60 [1; b]].
Lemma foreign_peer : forall d, foreign (story 1400 d) (at_ (20, 0)) peer <-> ~ own (story 1400 d) peer /\ forall l, ifs (story 1400 d) = Some l -> ~ of_interface l peer.
Proof. intros d. unfold foreign. cbn [at_ e_ifs]. split; intros [A B]; (split; [exact A|]); intros l; [intros E; apply B; left; exact E|intros [E|E]; [apply B; exact E|discriminate]]. Qed.
Example C28_case : (exists X, wants (story 1400 shop_calm) (mkquestion (nm 98) QTYPE_TXT 1) 0 X /\ unique X = 0 /\ 4 <= tries X) /\ idle (story 1400 shop_calm) 0 /\
  foreign (story 1400 shop_calm) (at_ (20, 0)) peer /\ is_shutdown (story 1400 shop_calm) = false /\
  (forall b, legal (story 1400 shop_calm) (at_ (20, 0)) (OIn (knowing b) peer)) /\
  map (fun b => match step (story 1400 shop_calm) (at_ (20, 0)) (OIn (knowing b) peer) with Ok (d, _) => a_pause (R d) | _ => Some 9%nat end) [97; 98] = [None; Some 0%nat].
Proof.
  split; [|split; [|split; [|split; [|split]]]].
  - eexists. split; [split; [vm_compute; reflexivity|]; split; [vm_compute; reflexivity|]; split; [vm_compute; reflexivity|left; reflexivity]|].
    split; [vm_compute; reflexivity|vm_compute; discriminate].
  - intros k (l & A & B). unfold queue_is in A. replace (head (R (story 1400 shop_calm)) k) with (@None nat) in A by (destruct k; vm_compute; reflexivity). inversion A; subst; destruct B.
  - apply foreign_peer. split; [vm_compute; discriminate|]. intros l E. vm_compute in E. discriminate.
  - vm_compute. reflexivity.
  - intros b. split; [cbn [at_ e_now fst]; lia|]. apply Forall_cons; [apply wf_resourceb_ok; reflexivity|]. apply Forall_cons; [apply wf_resourceb_ok; reflexivity|apply Forall_nil].
  - vm_compute. reflexivity.
Qed.

(* ---- C31 ---- *)
(* When the callback is called for an answer of another host.  Missing: that it
   is called for different data, which is false. *)
Theorem C31_partial : forall d e m from a, reach d -> legal d e (OIn m from) -> is_shutdown d = false -> foreign d e from -> h_qr (m_header m) <> 0 -> m_an m = [a] ->
  exists d' n, step d e (OIn m from) = Ok (d', RInt n) /\
   ((exists r X cb, first_match d (rr_name a) (rr_type a) r X /\ unique X <> 0 /\ modified X = true /\ same_rr a (rr X) /\ conflict X = Some cb /\
       conflicts (R d') = conflicts (R d) ++ [(cb, a_name (rr X), a_type (rr X))]) \/
    (~ exists r X, first_match d (rr_name a) (rr_type a) r X /\ unique X <> 0 /\ modified X = true /\ same_rr a (rr X)) /\ conflicts (R d') = conflicts (R d)).
Proof. exact response_conflict. Qed.
Print Assumptions C31_partial.

(* What a call of the callback means, for any packet *)
Theorem C31_sound_partial : forall d e m from d' x, reach d -> legal d e (OIn m from) -> step d e (OIn m from) = Ok (d', x) ->
  exists C, conflicts (R d') = conflicts (R d) ++ C /\ forall cb n ty, In (cb, n, ty) C ->
    exists r X, record d r X /\ unique X <> 0 /\ conflict X = Some cb /\ a_name (rr X) = n /\ a_type (rr X) = ty /\ ~ own d from /\
      (h_qr (m_header m) = 0 /\ in_probing X /\ modified X = false /\
         (exists q a, In q (m_qd m) /\ wants d q r X /\ In a (m_an m) /\ rr_name a = q_name q /\ rr_type a = q_type q /\ ~ same_rr a (rr X)) \/
       h_qr (m_header m) <> 0 /\ modified X = true /\ exists a, In a (m_an m) /\ same_rr a (rr X)).
Proof. exact conflicts_sound. Qed.
Print Assumptions C31_sound_partial.

(* A verified unique address *)
Definition verified : list (tv * op) :=
  [((1, 0), OSetAddress [10; 0; 0; 1]); ((1, 0), OUnique (nm 97) QTYPE_A 100 (Some 3%nat)); ((1, 0), OSetIp 0 [10; 0; 0; 1]);
   ((1, 0), OOut); ((2, 0), OOut); ((3, 0), OOut); ((4, 0), OOut); ((6, 0), OOut); ((8, 0), OOut); ((10, 0), OOut); ((12, 0), OOut)].
Lemma verified_foreign : foreign (story 1400 verified) (at_ (20, 0)) peer.
Proof. apply foreign_peer. split; [vm_compute; discriminate|]. intros l E. vm_compute in E. discriminate. Qed.
(* It is called for the very data of the record ... *)
Theorem C31_refuted_same : exists d e from i r X d' x, reach d /\ legal d e (OIn (telling [rr_a (nm 97) 1 100 i]) from) /\ foreign d e from /\ is_shutdown d = false /\
  record d r X /\ a_name (rr X) = nm 97 /\ a_type (rr X) = QTYPE_A /\ unique X = 5 /\ a_ip (rr X) = i /\
  step d e (OIn (telling [rr_a (nm 97) 1 100 i]) from) = Ok (d', x) /\ conflicts (R d') <> conflicts (R d).
Proof.
  exists (story 1400 verified), (at_ (20, 0)), peer, [10; 0; 0; 1]. eexists 0%nat. eexists. eexists. eexists.
  split; [apply story_reach|]. split; [apply legalb_ok; vm_compute; reflexivity|]. split; [exact verified_foreign|]. split; [vm_compute; reflexivity|].
  split; [vm_compute; reflexivity|]. split; [vm_compute; reflexivity|]. split; [vm_compute; reflexivity|]. split; [vm_compute; reflexivity|]. split; [vm_compute; reflexivity|].
  split; [vm_compute; reflexivity|]. vm_compute. discriminate.
Qed.
Print Assumptions C31_refuted_same.
(* ... and not for other data, whether the record is verified or being probed. *)
Theorem C31_refuted_other : exists d e from i r X d' x, reach d /\ legal d e (OIn (telling [rr_a (nm 97) 1 100 i]) from) /\ foreign d e from /\ is_shutdown d = false /\
  record d r X /\ a_name (rr X) = nm 97 /\ a_type (rr X) = QTYPE_A /\ unique X = 5 /\ a_ip (rr X) <> i /\
  step d e (OIn (telling [rr_a (nm 97) 1 100 i]) from) = Ok (d', x) /\ conflicts (R d') = conflicts (R d).
Proof.
  exists (story 1400 verified), (at_ (20, 0)), peer, [10; 0; 0; 7]. eexists 0%nat. eexists. eexists. eexists.
  split; [apply story_reach|]. split; [apply legalb_ok; vm_compute; reflexivity|]. split; [exact verified_foreign|]. split; [vm_compute; reflexivity|].
  split; [vm_compute; reflexivity|]. split; [vm_compute; reflexivity|]. split; [vm_compute; reflexivity|]. split; [vm_compute; reflexivity|]. split; [vm_compute; discriminate|].
  split; [vm_compute; reflexivity|]. vm_compute. reflexivity.
Qed.
Print Assumptions C31_refuted_other.

(* A probe of another host for the same name with other data, in the authority
   section as RFC 6762 prescribes and in the answer section where the code
   looks *)
Definition rival (i : list Z) : message :=
  mkmessage 0 (hdr 0) [mkquestion (nm 97) QTYPE_A 1] [rr_a (nm 97) 1 100 i] [rr_a (nm 97) 1 100 i] [].
Definition unverified : list (tv * op) := [((1, 0), OUnique (nm 97) QTYPE_A 100 (Some 3%nat)); ((1, 0), OSetIp 0 [10; 0; 0; 1]); ((1, 0), OOut)].
Theorem C31_refuted_probe : exists d e from i r X d' x, reach d /\ legal d e (OIn (rival i) from) /\ foreign d e from /\ is_shutdown d = false /\
  record d r X /\ a_name (rr X) = nm 97 /\ a_type (rr X) = QTYPE_A /\ in_probing X /\ a_ip (rr X) <> i /\
  step d e (OIn (rival i) from) = Ok (d', x) /\ conflicts (R d') = conflicts (R d) /\ waits d' Probing r.
Proof.
  exists (story 1400 unverified), (at_ (20, 0)), peer, [10; 0; 0; 7]. eexists 0%nat. eexists. eexists. eexists.
  split; [apply story_reach|]. split; [apply legalb_ok; vm_compute; reflexivity|]. split; [apply foreign_peer; split; [vm_compute; discriminate|]; intros l E; vm_compute in E; discriminate|].
  split; [vm_compute; reflexivity|].
  split; [vm_compute; reflexivity|]. split; [vm_compute; reflexivity|]. split; [vm_compute; reflexivity|]. split; [vm_compute; split; congruence|]. split; [vm_compute; discriminate|].
  split; [vm_compute; reflexivity|]. split; [vm_compute; reflexivity|]. exists [0%nat]. split; [|left; reflexivity]. eapply linked_node; [vm_compute; reflexivity|apply linked_end].
Qed.
Print Assumptions C31_refuted_probe.

(* A record without data is given up for such a probe. *)
Definition empty_handed : list (tv * op) := [((1, 0), OUnique (nm 97) QTYPE_A 100 (Some 3%nat)); ((1, 0), OOut)].
Example C31_case : foreign (story 1400 verified) (at_ (20, 0)) peer /\ (exists X, first_match (story 1400 verified) (nm 97) QTYPE_A 0 X /\ unique X = 5 /\ modified X = true) /\
  exists d' x, step (story 1400 empty_handed) (at_ (20, 0)) (OIn (rival [10; 0; 0; 7]) peer) = Ok (d', x) /\ conflicts (R d') = [(3%nat, nm 97, QTYPE_A)].
Proof.
  split; [exact verified_foreign|]. split.
  - eexists. split; [exists [], []; split; [vm_compute; reflexivity|]; split; [vm_compute; reflexivity|];
      split; [split; [vm_compute; reflexivity|left; reflexivity]|intros p P []]|]. split; vm_compute; reflexivity.
  - eexists. eexists. split; vm_compute; reflexivity.
Qed.

(* ---- C39 ---- *)
(* One reply for each question that is about some record, none for service
   enumeration.  The queue is a stack: the last is sent first. *)
Theorem C39_queued : forall d e m from d' x, reach d -> is_shutdown d = false -> foreign d e from -> h_qr (m_header m) = 0 -> port from <> 5353 ->
  step d e (OIn m from) = Ok (d', x) -> conflicts (R d') = conflicts (R d) ->
  exists l, uans (R d') = rev (concat l) ++ uans (R d) /\ Forall2 (fun q us =>
    match us with
    | [] => q_name q = DISCO_NAME \/ forall r X, ~ wants d q r X
    | [u] => q_name q <> DISCO_NAME /\ (exists X, wants d q (u_r u) X) /\ u_id u = m_id m /\ u_to u = from
    | _ => False
    end) (m_qd m) l.
Proof. exact unicast_queued. Qed.
Print Assumptions C39_queued.

(* Each is sent by one mdnsd_out. *)
Theorem C39_sent : forall d e u us, reach d -> legal d e OOut -> uans (R d) = u :: us ->
  exists d' m X, step d e OOut = Ok (d', RMsg m 1) /\ record d (u_r u) X /\ o_to m = u_to u /\ o_id m = u_id u /\ o_qr m = true /\
    (exists more, items (o_calls m) = IQuestion (a_name (rr X)) (a_type (rr X)) (class d) :: shown SAn (class d) X :: more) /\ uans (R d') = us.
Proof. exact unicast_sent. Qed.
Print Assumptions C39_sent.

Example C39_case : exists d1 x d2 m y, step (story 1400 shop_calm) (at_ (20, 0)) (OIn (asking 77 [mkquestion (nm 97) 1 1; mkquestion (nm 98) QTYPE_TXT 1] []) stranger) = Ok (d1, x) /\
  conflicts (R d1) = [] /\ map (fun u => (u_id u, u_to u)) (uans (R d1)) = [(77, stranger)] /\
  step d1 (at_ (20, 0)) OOut = Ok (d2, y) /\ y = RMsg m 1 /\ o_to m = stranger /\ o_id m = 77 /\ uans (R d2) = [].
Proof.
  eexists. eexists. eexists. eexists. eexists. split; [vm_compute; reflexivity|]. split; [vm_compute; reflexivity|]. split; [vm_compute; reflexivity|].
  split; [vm_compute; reflexivity|]. split; [reflexivity|]. split; [vm_compute; reflexivity|]. split; vm_compute; reflexivity.
Qed.
