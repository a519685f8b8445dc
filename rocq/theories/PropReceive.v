(* The property of the receive callback (C119). *)
From Verif Require Import Base Hash Wire Rec Qry Out In Api SpecDaemon SpecReceive FactsReceive Scenario.

(* A response of another host: every answer, in order, each once; nothing
   without a callback *)
Theorem C119_answers : forall t cls frm l d e m from d' x, 0 <= fst t -> history (mdnsd_new t cls frm) l d -> ~ shut l -> foreign d e from -> h_qr (m_header m) <> 0 ->
  step d e (OIn m from) = Ok (d', x) -> received d' = received d ++ (if listening l then m_an m else []).
Proof. exact answers_heard. Qed.
Print Assumptions C119_answers.

(* Whatever it was ever told came in a packet of another host while it was
   registered. *)
Theorem C119_only : forall t cls frm l d a, 0 <= fst t -> history (mdnsd_new t cls frm) l d -> In a (received d) ->
  exists l1 ev l2 m from, l = l1 ++ ev :: l2 /\ listening l1 = true /\ ev_call ev = OIn m from /\ brings m a /\
    ~ own (ev_before ev) from /\ (forall i, snapshot (ev_before ev) (ev_env ev) = Some i -> ~ of_interface i from) /\ ~ shut l1.
Proof. exact only_heard. Qed.
Print Assumptions C119_only.

(* No other call tells it anything. *)
Theorem C119_quiet : forall d e o d' x, (forall m from, o <> OIn m from) -> step d e o = Ok (d', x) -> received d' = received d.
Proof. exact quiet. Qed.
Print Assumptions C119_quiet.

(* Registered, a response with three answers (the last a goodbye), removed, a
   response, registered anew, a query *)
Definition news : list resource := [rr_ptr (nm 97) 1 100 (nm 98); rr_a (nm 98) 32769 120 [10; 0; 0; 7]; rr_txt (nm 98) 32769 0 [1; 120]].
Definition ears : list (tv * op) :=
  [((1, 0), OShared (nm 98) QTYPE_TXT 60); ((1, 0), OSetRaw 0 [1; 97]); ((1, 0), OIn (telling [rr_a (nm 99) 1 9 [10; 0; 0; 6]]) peer); ((2, 0), ORegister true); ((2, 0), OIn (telling news) peer); ((3, 0), ORegister false);
   ((3, 0), OIn (telling [rr_a (nm 99) 1 9 [10; 0; 0; 6]]) peer); ((4, 0), ORegister true); ((5, 0), OIn (asking 0 [mkquestion (nm 98) QTYPE_TXT 1] [rr_txt (nm 98) 1 50 [1; 120]; rr_a (nm 98) 1 50 [10; 0; 0; 7]]) peer); ((6, 0), OOut)].
Lemma foreign_peer : forall l, d_addr (story 1400 l) = zero4 -> ifs (story 1400 l) = None -> foreign (story 1400 l) (at_ (9, 0)) peer.
Proof. intros l A B. split; [unfold own; cbn; rewrite A; discriminate|]. intros i [E|E]; [congruence|discriminate]. Qed.
Lemma shut_by : forall l, forallb (fun ev => match ev_call ev with OShutdown => false | _ => true end) l = true -> ~ shut l.
Proof. intros l K (ev & I & E). rewrite forallb_forall in K. specialize (K ev I). rewrite E in K. discriminate. Qed.
Example C119_case : history (mdnsd_new (1, 0) 1 1400) (annals 1400 ears) (story 1400 ears) /\ length (annals 1400 ears) = 10%nat /\ received (story 1400 ears) = news ++ [rr_txt (nm 98) 1 50 [1; 120]] /\
  listening (annals 1400 ears) = true /\ ~ shut (annals 1400 ears) /\ foreign (story 1400 ears) (at_ (9, 0)) peer /\
  match step (story 1400 ears) (at_ (9, 0)) (OIn (telling news) peer) with Ok (d, _) => received d = received (story 1400 ears) ++ news | _ => False end.
Proof.
  split; [apply annals_history|]. split; [vm_compute; reflexivity|]. split; [vm_compute; reflexivity|]. split; [vm_compute; reflexivity|]. split; [apply shut_by; vm_compute; reflexivity|].
  split; [apply foreign_peer; vm_compute; reflexivity|vm_compute; reflexivity].
Qed.

(* "Called when a record is received" is not so for the authority and additional
   sections, where responders put the addresses that go with their answers. *)
Definition full : message := mkmessage 0 (hdr 1) [] [rr_ptr (nm 97) 1 100 (nm 98)] [] [rr_a (nm 98) 32769 120 [10; 0; 0; 7]].
Definition hears : list (tv * op) := [((1, 0), ORegister true)].
Theorem C119_refuted_sections : ~ (forall t cls frm l d e m from d' x, 0 <= fst t -> history (mdnsd_new t cls frm) l d -> ~ shut l -> listening l = true -> foreign d e from -> legal d e (OIn m from) ->
  h_qr (m_header m) <> 0 -> step d e (OIn m from) = Ok (d', x) -> forall a, contains m a -> In a (received d')).
Proof.
  intros H. destruct (step (story 1400 hears) (at_ (9, 0)) (OIn full peer)) as [[d' x]| | |] eqn:E; [|vm_compute in E; discriminate E..].
  assert (G : received d' = [rr_ptr (nm 97) 1 100 (nm 98)]).
  { assert (W : match step (story 1400 hears) (at_ (9, 0)) (OIn full peer) with Ok (d, _) => received d = [rr_ptr (nm 97) 1 100 (nm 98)] | _ => False end) by (vm_compute; reflexivity). rewrite E in W. exact W. }
  assert (F : foreign (story 1400 hears) (at_ (9, 0)) peer) by (apply foreign_peer; vm_compute; reflexivity).
  assert (L : legal (story 1400 hears) (at_ (9, 0)) (OIn full peer)) by (apply legalb_ok; vm_compute; reflexivity).
  assert (Sh : ~ shut (annals 1400 hears)) by (apply shut_by; vm_compute; reflexivity).
  assert (Li : listening (annals 1400 hears) = true) by (vm_compute; reflexivity).
  assert (Ti : 0 <= fst ((1, 0) : tv)) by (cbn; lia).
  assert (Qr : h_qr (m_header full) <> 0) by (cbn; lia).
  assert (Co : contains full (rr_a (nm 98) 32769 120 [10; 0; 0; 7])) by (right; right; left; reflexivity).
  pose proof (annals_history 1400 hears) as Hi.
  generalize dependent (story 1400 hears). generalize dependent (annals 1400 hears). intros l Sh Li d E F L Hi.
  specialize (H (1, 0) 1 1400 l d (at_ (9, 0)) full peer d' x Ti Hi Sh Li F L Qr E _ Co).
  rewrite G in H. destruct H as [H|[]]. discriminate.
Qed.
Print Assumptions C119_refuted_sections.

(* Nor are the known answers of queries told as they come: here one known answer
   is told twice, once for each record of the host it is compared with. *)
Definition pair : list (tv * op) :=
  [((1, 0), OShared (nm 98) QTYPE_TXT 60); ((1, 0), OSetRaw 0 [1; 97]); ((1, 0), OShared (nm 98) QTYPE_TXT 60); ((1, 0), OSetRaw 1 [1; 98]); ((1, 0), ORegister true)].
Definition probe : message := asking 0 [mkquestion (nm 98) QTYPE_TXT 1] [rr_txt (nm 98) 1 50 [1; 120]].
Theorem C119_refuted_queries : ~ (forall t cls frm l d e m from d' x, 0 <= fst t -> history (mdnsd_new t cls frm) l d -> ~ shut l -> listening l = true -> foreign d e from -> legal d e (OIn m from) ->
  h_qr (m_header m) = 0 -> (forall a, In a (m_an m) -> brings m a) -> step d e (OIn m from) = Ok (d', x) -> received d' = received d ++ m_an m).
Proof.
  intros H. destruct (step (story 1400 pair) (at_ (9, 0)) (OIn probe peer)) as [[d' x]| | |] eqn:E; [|vm_compute in E; discriminate E..].
  assert (G : received d' = [rr_txt (nm 98) 1 50 [1; 120]; rr_txt (nm 98) 1 50 [1; 120]]).
  { assert (W : match step (story 1400 pair) (at_ (9, 0)) (OIn probe peer) with Ok (d, _) => received d = [rr_txt (nm 98) 1 50 [1; 120]; rr_txt (nm 98) 1 50 [1; 120]] | _ => False end) by (vm_compute; reflexivity). rewrite E in W. exact W. }
  assert (F : foreign (story 1400 pair) (at_ (9, 0)) peer) by (apply foreign_peer; vm_compute; reflexivity).
  assert (L : legal (story 1400 pair) (at_ (9, 0)) (OIn probe peer)) by (apply legalb_ok; vm_compute; reflexivity).
  assert (B : forall a, In a (m_an probe) -> brings probe a) by (intros a [<-|[]]; split; [left; reflexivity|]; intros _; eexists; split; [left; reflexivity|split; reflexivity]).
  assert (Sh : ~ shut (annals 1400 pair)) by (apply shut_by; vm_compute; reflexivity).
  assert (Li : listening (annals 1400 pair) = true) by (vm_compute; reflexivity).
  assert (Ti : 0 <= fst ((1, 0) : tv)) by (cbn; lia).
  assert (Re : received (story 1400 pair) = []) by (vm_compute; reflexivity).
  pose proof (annals_history 1400 pair) as Hi.
  generalize dependent (story 1400 pair). generalize dependent (annals 1400 pair). intros l Sh Li d E F L Re Hi.
  specialize (H (1, 0) 1 1400 l d (at_ (9, 0)) probe peer d' x Ti Hi Sh Li F L eq_refl B E).
  rewrite G, Re in H. discriminate.
Qed.
Print Assumptions C119_refuted_queries.
