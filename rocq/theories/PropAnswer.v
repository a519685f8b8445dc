(* Property theorems C92 and C93: questions are answered, and messages go to the
   group or to who asked.
   Vocabulary: SpecDaemon.v, SpecLife.v, SpecAnswer.v.  Model: Rec.v, Out.v, In.v, Api.v. *)
From Verif Require Import Base Hash Wire Rec Qry Out In Api SpecDaemon SpecLife SpecAnswer Scenario FactsUni FactsAnswer PropLife PropIn.

(* ---- C92 ---- *)
(* A published record that is asked for, and that the asker does not list as
   known, waits to be sent. *)
Theorem C92_queued : forall d e m from q r X, reach d -> legal d e (OIn m from) -> is_shutdown d = false -> foreign d e from -> h_qr (m_header m) = 0 -> In q (m_qd m) ->
  wants d q r X -> unique X = 0 \/ unique X = 5 -> 4 <= tries X -> q_name q = DISCO_NAME \/ ~ knows m q X ->
  exists d' n Y, step d e (OIn m from) = Ok (d', RInt n) /\ waits d' (if unique X =? 0 then Pause else Now) r /\ record d' r Y /\ unchanged Y X /\
    (disco d = false -> (forall q, In q (m_qd m) -> q_name q <> DISCO_NAME) -> disco d' = false) /\ (port from = 5353 -> uans (R d) = [] -> uans (R d') = []) /\
    is_shutdown d' = false /\ class d' = class d /\ frame d' = frame d /\ d_family d' = d_family d.
Proof. exact question_queued. Qed.
Print Assumptions C92_queued.

(* The next message of mdnsd_out says the records that wait, until it is full. *)
Theorem C92_sent : forall d e d' m n r, reach d -> legal d e OOut -> step d e OOut = Ok (d', RMsg m n) -> is_shutdown d = false -> uans (R d) = [] -> disco d = false ->
  waits d Now r \/ (waits d Pause r /\ micros (t_pause (R d)) <= micros (e_now e)) -> multicasts r (mkevent d e OOut (RMsg m n) d') \/ full d m.
Proof. exact answer_sent. Qed.
Print Assumptions C92_sent.

(* So the message that mdnsd_out makes 119 microseconds later or after that
   answers the question.  Missing: questions that come with one for the
   enumeration of services. *)
Theorem C92_partial : forall d e m from q r X, reach d -> legal d e (OIn m from) -> is_shutdown d = false -> foreign d e from -> h_qr (m_header m) = 0 -> In q (m_qd m) ->
  wants d q r X -> unique X = 0 \/ unique X = 5 -> 4 <= tries X -> ~ knows m q X ->
  0 <= snd (e_now e) -> port from = 5353 -> uans (R d) = [] -> disco d = false -> (forall q, In q (m_qd m) -> q_name q <> DISCO_NAME) -> ~ waits d Pause r ->
  exists d1 n, step d e (OIn m from) = Ok (d1, RInt n) /\ forall e' d2 m' n', legal d1 e' OOut -> step d1 e' OOut = Ok (d2, RMsg m' n') -> micros (e_now e) + 119 <= micros (e_now e') ->
    o_to m' = group (d_family d) /\ (o_qr m' = true /\ says m' (as_answer (class d) (r, X)) \/ full d1 m').
Proof. exact question_answered. Qed.
Print Assumptions C92_partial.

(* Two texts are asked for, one of which is known to the asker. *)
Definition two_texts : list (tv * op) := [((1, 0), OShared (nm 97) QTYPE_TXT 60); ((1, 0), OSetRaw 0 [1; 97]); ((1, 0), OShared (nm 98) QTYPE_TXT 60); ((1, 0), OSetRaw 1 [1; 98])] ++
  map (fun t => ((t, 0), OOut)) [1; 3; 5; 7].
Definition both : message := asking 5 [mkquestion (nm 97) QTYPE_TXT 1; mkquestion (nm 98) QTYPE_TXT 1] [rr_txt (nm 97) 1 60 [1; 97]].
Example C92_case : let d := story 1400 two_texts in legal d (at_ (20, 50)) (OIn both peer) /\ foreign d (at_ (20, 50)) peer /\ (exists X, wants d (mkquestion (nm 98) QTYPE_TXT 1) 1 X /\ unique X = 0 /\ tries X = 4 /\
    ~ knows both (mkquestion (nm 98) QTYPE_TXT 1) X) /\ uans (R d) = [] /\ disco d = false /\ is_shutdown d = false /\ (forall r, idle d r) /\
  match step d (at_ (20, 50)) (OIn both peer) with Ok (d1, _) =>
    map (fun t => match step d1 (at_ (20, t)) OOut with Ok (_, RMsg m _) => items (o_calls m) | _ => [] end) [119; 120; 169] | _ => [] end =
  [[]; [IRecord SAn (nm 98) QTYPE_TXT 1 60 [MRaw [1; 98]]]; [IRecord SAn (nm 98) QTYPE_TXT 1 60 [MRaw [1; 98]]]].
Proof.
  cbv zeta. split; [apply legalb_ok; vm_compute; reflexivity|]. split; [split; [vm_compute; discriminate|]; intros l [E|E]; vm_compute in E; discriminate|].
  split; [eexists; split; [split; [vm_compute; reflexivity|]; split; [vm_compute; reflexivity|]; split; [vm_compute; reflexivity|left; reflexivity]|]; split; [vm_compute; reflexivity|]; split; [vm_compute; reflexivity|];
    intros (a & [<-|[]] & A & _); vm_compute in A; discriminate|].
  split; [vm_compute; reflexivity|]. split; [vm_compute; reflexivity|]. split; [vm_compute; reflexivity|]. split; [apply idle_by; vm_compute; reflexivity|]. vm_compute. reflexivity.
Qed.

(* A question for a text comes with one for the services of the host.  The
   answer to the first is taken off its queue and not sent. *)
Definition text_and_type : list (tv * op) := [((1, 0), OShared DISCO_NAME QTYPE_PTR 60); ((1, 0), OSetHost 0 (nm 115)); ((1, 0), OShared (nm 98) QTYPE_TXT 60); ((1, 0), OSetRaw 1 [1; 98])] ++
  map (fun t => ((t, 0), OOut)) [1; 3; 5; 7].
Definition browse : message := asking 5 [mkquestion (nm 98) QTYPE_TXT 1; mkquestion DISCO_NAME QTYPE_PTR 1] [].
Theorem C92_refuted : exists d e m from q r X d1 n e' d2 m' n', reach d /\ legal d e (OIn m from) /\ is_shutdown d = false /\ foreign d e from /\ h_qr (m_header m) = 0 /\ In q (m_qd m) /\
  wants d q r X /\ unique X = 0 /\ 4 <= tries X /\ ~ knows m q X /\ 0 <= snd (e_now e) /\ port from = 5353 /\ uans (R d) = [] /\ disco d = false /\ idle d r /\
  step d e (OIn m from) = Ok (d1, RInt n) /\ legal d1 e' OOut /\ step d1 e' OOut = Ok (d2, RMsg m' n') /\ micros (e_now e) + 119 <= micros (e_now e') /\
  items (o_calls m') = [IRecord SAn DISCO_NAME QTYPE_PTR 1 60 [MName (nm 115)]] /\ idle d2 r.
Proof.
  exists (story 1400 text_and_type), (at_ (20, 0)), browse, peer, (mkquestion (nm 98) QTYPE_TXT 1), 1%nat. eexists. eexists. eexists. exists (at_ (20, 200)). eexists. eexists. eexists.
  split; [apply story_reach|]. split; [apply legalb_ok; vm_compute; reflexivity|]. split; [vm_compute; reflexivity|].
  split; [split; [vm_compute; discriminate|]; intros l [E|E]; vm_compute in E; discriminate|]. split; [reflexivity|]. split; [left; reflexivity|].
  split; [split; [vm_compute; reflexivity|]; split; [vm_compute; reflexivity|]; split; [vm_compute; reflexivity|left; reflexivity]|]. split; [vm_compute; reflexivity|]. split; [vm_compute; discriminate|].
  split; [intros (a & [] & _)|]. split; [vm_compute; discriminate|]. split; [reflexivity|]. split; [vm_compute; reflexivity|]. split; [vm_compute; reflexivity|]. split; [apply idle_by; vm_compute; reflexivity|].
  split; [vm_compute; reflexivity|]. split; [apply legalb_ok; vm_compute; reflexivity|]. split; [vm_compute; reflexivity|]. split; [vm_compute; discriminate|]. split; [vm_compute; reflexivity|]. apply idle_by. vm_compute. reflexivity.
Qed.
Print Assumptions C92_refuted.

(* ---- C93 ---- *)
(* Every message of mdnsd_out is for the group of the family set last and has
   id 0, or it answers a question that was received from its destination, from
   another port than 5353 and with its id, and that it repeats first. *)
Theorem C93_to : forall t0 cls frm l d e d' m n, 0 <= fst t0 -> history (mdnsd_new t0 cls frm) l d -> legal d e OOut -> step d e OOut = Ok (d', RMsg m n) ->
  (o_to m = group (family_set l) /\ o_id m = 0) \/
  (o_qr m = true /\ port (o_to m) <> 5353 /\ exists ev mq q r X Y more, In ev l /\ ev_call ev = OIn mq (o_to m) /\ h_qr (m_header mq) = 0 /\ m_id mq = o_id m /\ In q (m_qd mq) /\ wants (ev_before ev) q r X /\
    record d r Y /\ a_name (rr Y) = q_name q /\ (q_type q = a_type (rr Y) \/ q_type q = QTYPE_ANY) /\ items (o_calls m) = IQuestion (q_name q) (a_type (rr Y)) (class d) :: shown SAn (class d) Y :: more).
Proof. exact message_to. Qed.
Print Assumptions C93_to.

(* A record keeps its name and type. *)
Theorem C93_identity : forall d e o d' x r Y, reach d -> legal d e o -> step d e o = Ok (d', x) -> (r < fresh (R d))%nat -> record d' r Y ->
  exists X, record d r X /\ a_name (rr Y) = a_name (rr X) /\ a_type (rr Y) = a_type (rr X).
Proof. exact step_identity. Qed.
Print Assumptions C93_identity.

(* The text is asked for by a host on another port, then by one on port 5353;
   the family is set to IPv6 at the end. *)
Definition asked_twice : list (tv * op) := two_texts ++ [((20, 0), OIn (asking 77 [mkquestion (nm 98) QTYPE_ANY 1] []) stranger); ((20, 1), OIn both peer)].
Example C93_case :
  match step (story 1400 asked_twice) (at_ (20, 200)) OOut with Ok (_, RMsg m _) => Some (o_to m, o_id m, firstn 2 (items (o_calls m))) | _ => None end =
    Some (stranger, 77, [IQuestion (nm 98) QTYPE_TXT 1; IRecord SAn (nm 98) QTYPE_TXT 1 60 [MRaw [1; 98]]]) /\
  match step (story 1400 (asked_twice ++ [((20, 200), OOut)])) (at_ (20, 200)) OOut with Ok (_, RMsg m _) => Some (o_to m, o_id m, items (o_calls m)) | _ => None end =
    Some (mkaddr 2 [224; 0; 0; 251] 5353, 0, [IRecord SAn (nm 98) QTYPE_TXT 1 60 [MRaw [1; 98]]]) /\
  match step (story 1400 (asked_twice ++ [((20, 200), OOut); ((20, 200), OSetFamily 10)])) (at_ (20, 200)) OOut with Ok (_, RMsg m _) => Some (o_to m) | _ => None end =
    Some (mkaddr 10 [255; 2; 0; 0; 0; 0; 0; 0; 0; 0; 0; 0; 0; 0; 0; 251] 5353).
Proof. split; [vm_compute; reflexivity|]. split; vm_compute; reflexivity. Qed.
Example C93_case_identity : let d := story 1400 asked_twice in fresh (R d) = 2%nat /\ legal d (at_ (21, 0)) (OSetRaw 1 [2; 97; 98]) /\ exists d' Y, step d (at_ (21, 0)) (OSetRaw 1 [2; 97; 98]) = Ok (d', RUnit) /\ record d' 1 Y /\ a_rdata (rr Y) = Some [2; 97; 98].
Proof.
  cbv zeta. split; [vm_compute; reflexivity|]. split; [apply legalb_ok; vm_compute; reflexivity|]. eexists. eexists. split; [vm_compute; reflexivity|]. split; [vm_compute; reflexivity|reflexivity].
Qed.
