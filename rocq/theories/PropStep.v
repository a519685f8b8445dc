(* Property theorems C56 and C68: mdnsd_step.
   Vocabulary: SpecDaemon.v, SpecStep.v.  Model: Step.v. *)
From Verif Require Import Base Hash Wire Rec Qry Out In Api SpecDaemon Scenario Step SpecStep FactsStep PropLife.

(* ---- C56 ---- *)
(* Datagrams that do not claim to be longer than they are: taking them in one
   call is the same as taking them in several calls, each with a cleared buffer,
   and each has the effect of its own bytes. *)
Theorem C56_partial : forall d l1 l2, brings self_contained (l1 ++ l2) -> process_in d (l1 ++ l2) = bind (process_in d l1) (fun x => process_in (fst x) l2).
Proof. exact receive_split'. Qed.
Print Assumptions C56_partial.

Theorem C56_own_partial : forall d e b from, self_contained b -> process_in d [(e, Datagram b from)] = bind (handle d e b from) (fun d => Ok (d, 0)).
Proof. exact receive_own. Qed.
Print Assumptions C56_own_partial.

(* However long a datagram is, storing it changes bytes of the receive buffer only, it
   leaves a zero at the end of the buffer, and up to there it is stored as it came. *)
Theorem C56_room : forall buf b, (forall i, fill buf b i <> buf i -> 0 <= i < RECV_SIZE) /\ fill buf b (RECV_SIZE - 1) = 0 /\
  (forall i, 0 <= i < zlen b -> i < RECV_SIZE - 1 -> fill buf b i = zget b i) /\ (forall i, zlen b <= i < RECV_SIZE - 1 -> fill buf b i = buf i).
Proof. exact fill_room. Qed.
Print Assumptions C56_room.

Example C56_case_room : fill (fun _ => 9) [1; 2] 65535 = 0 /\ fill (fun _ => 9) [1; 2] 1 = 2 /\ fill (fun _ => 9) [1; 2] 2 = 9 /\ fill (fun _ => 9) [1; 2] 65534 = 9.
Proof. repeat split; vm_compute; reflexivity. Qed.

(* A question for the record, and the same bytes in a response that has no
   question according to its header; then the header of a question alone. *)
Definition quest_bytes : list Z := [1; 97; 5; 108; 111; 99; 97; 108; 0; 0; 16; 0; 1].
Definition quest_packet : list Z := [0; 0; 0; 0; 0; 1; 0; 0; 0; 0; 0; 0] ++ quest_bytes.
Definition harmless : list Z := [0; 0; 132; 0; 0; 0; 0; 0; 0; 0; 0; 0] ++ quest_bytes.
Definition bare : list Z := [0; 0; 0; 0; 0; 1; 0; 0; 0; 0; 0; 0].
Definition text_known : daemon := story 1400 ([((1, 0), OShared (nm 97) QTYPE_TXT 60); ((1, 0), OSetRaw 0 [1; 97])] ++ map (fun t => ((t, 0), OOut)) [1; 3; 5; 7; 9]).

Example C56_case : self_contained quest_packet /\ self_contained harmless /\
  exists d, process_in text_known [(at_ (9, 0), Datagram harmless peer); (at_ (9, 0), Datagram quest_packet peer)] = Ok (d, 0) /\ waits d Pause 0.
Proof.
  split; [split; [vm_compute; split; [reflexivity|discriminate]|vm_compute; discriminate]|]. split; [split; [vm_compute; split; [reflexivity|discriminate]|vm_compute; discriminate]|].
  destruct (process_in text_known [(at_ (9, 0), Datagram harmless peer); (at_ (9, 0), Datagram quest_packet peer)]) as [[d rc]| | |] eqn:E; vm_compute in E; try discriminate E.
  injection E as <- <-. eexists. split; [reflexivity|]. apply (waits_by [0%nat]); [vm_compute; reflexivity|left; reflexivity].
Qed.

(* In general what follows a datagram in the buffer counts: the bare header is
   taken as the question of the datagram before it. *)
Theorem C56_refuted : exists d1 d2, process_in text_known [(at_ (9, 0), Datagram harmless peer)] = Ok (d1, 0) /\ process_in d1 [(at_ (9, 0), Datagram bare peer)] = Ok (d2, 0) /\ ~ waits d2 Pause 0 /\
  exists d, process_in text_known [(at_ (9, 0), Datagram harmless peer); (at_ (9, 0), Datagram bare peer)] = Ok (d, 0) /\ waits d Pause 0.
Proof.
  destruct (process_in text_known [(at_ (9, 0), Datagram harmless peer)]) as [[d1 rc]| | |] eqn:E; vm_compute in E; try discriminate E. injection E as <- <-.
  eexists. eexists. split; [reflexivity|]. split; [vm_compute; reflexivity|]. split.
  - apply (idle_by (mkdaemon _ _ _ _ _ _ _ _ _ _ _ _ _ _ _)). vm_compute. reflexivity.
  - destruct (process_in text_known [(at_ (9, 0), Datagram harmless peer); (at_ (9, 0), Datagram bare peer)]) as [[d rc]| | |] eqn:E; vm_compute in E; try discriminate E. injection E as <- <-. eexists. split; [reflexivity|].
    apply (waits_by [0%nat]); [vm_compute; reflexivity|left; reflexivity].
Qed.
Print Assumptions C56_refuted.

(* ---- C68 ---- *)
(* Whatever datagrams arrive: mdnsd_step makes a history of calls of mdnsd_in,
   mdnsd_out and mdnsd_sleep, so that everything proved of histories holds of
   it, and sends what mdnsd_out gives.  The only undefined behaviour left is the
   parser reading behind the receive buffer (C06), never with datagrams that are
   as long as they claim, and a message that overflows its packet (C66). *)
Theorem C68_calls : forall d e inp out wt li lo, reach d -> 0 <= fst (e_now e) -> reading li -> writing lo ->
  match mdnsd_step d e inp out wt li lo with
  | Ok (d', ps, t, rc) => exists h, does d d' h ps t
  | UB (OobRead _) => ~ brings self_contained li
  | UB (OobWrite _) => exists d' h ps, does d d' h ps None /\ overflows h
  | Hang => exists d0 h0 ps0, does d d0 h0 ps0 None /\ process_out d0 lo = Hang
  | _ => False
  end.
Proof. exact step_runs. Qed.
Print Assumptions C68_calls.

(* The loop over mdnsd_out ends if the clock stands still. *)
Theorem C68_ends : forall d lo t ln la lp lb, reach d -> writing lo -> (forall x, In x lo -> e_now (fst x) = t) ->
  queue_is d Now ln -> queue_is d Pause la -> queue_is d Publish lp -> queue_is d Probing lb ->
  (length (uans (R d)) + length ln + length la + 4 * length lp + 8 * length lb + 2 * length (qlist (Q d)) < length lo)%nat -> process_out d lo <> Hang.
Proof. exact send_ends. Qed.
Print Assumptions C68_ends.

(* A question arrives and is answered: one packet, of two calls of mdnsd_out. *)
Definition asked_for : list (env * received) := [(at_ (9, 0), Datagram harmless peer); (at_ (9, 0), Datagram quest_packet peer)].
Definition sending : list (env * bool) := [(at_ (10, 0), true); (at_ (10, 0), true); (at_ (10, 0), true); (at_ (10, 0), true)].
Example C68_case : reach text_known /\ reading asked_for /\ writing sending /\ (exists d' t, mdnsd_step text_known (at_ (10, 0)) true true true asked_for sending =
    Ok (d', [(mcast AF_INET, [0; 0; 132; 0; 0; 0; 0; 1; 0; 0; 0; 0] ++ firstn 9 quest_bytes ++ [0; 16; 0; 1; 0; 0; 0; 60; 0; 2; 1; 97])], Some t, 0)) /\
  queue_is text_known Now [] /\ queue_is text_known Pause [] /\ queue_is text_known Publish [] /\ queue_is text_known Probing [].
Proof.
  split; [apply story_reach|]. split; [|split; [|split]].
  - intros e x [E|[E|[]]]; injection E as <- <-; split; try (vm_compute; discriminate); unfold bytes; apply Forall_forall; intros z I; vm_compute in I; unfold is_byte; repeat (destruct I as [<-|I]; [lia|]); destruct I.
  - intros e x I. assert (E : e = at_ (10, 0)) by (repeat (destruct I as [I|I]; [injection I as <- _; reflexivity|]); destruct I). subst e. split; [vm_compute; discriminate|intros k; reflexivity].
  - eexists. eexists. vm_compute. reflexivity.
  - unfold queue_is. split; [|split; [|split]]; (match goal with |- linked _ ?h _ => assert (Z : h = None) by (vm_compute; reflexivity); rewrite Z; constructor end).
Qed.
