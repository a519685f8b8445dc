(* Property theorems C35 and C66, continued: the size of every message, from the
   calls that were made.  Vocabulary: SpecSize.v. *)
From Verif Require Import Base Hash Wire Rec Qry Out In Api SpecDaemon SpecSize Scenario FactsSized.

(* ---- C35 ---- *)
(* After any calls, a multicast response exceeds the frame size given to mdnsd_new
   by at most 261 bytes. *)
Theorem C35_response_partial : forall t cls frm l d e d' m n, 0 <= fst t -> history (mdnsd_new t cls frm) l d -> sized_calls l -> uans (R d) = [] -> step d e OOut = Ok (d', RMsg m n) -> o_qr m = true ->
  packet_len (encode (o_calls m)) <= Z.max 12 (frm + 261).
Proof. exact sized_response. Qed.
Print Assumptions C35_response_partial.

(* Any message exceeds the frame size by at most 261 bytes, or is no larger than
   what the registered queries, the records probed for and the promised unicast
   answers need.  P lists the latter records. *)
Theorem C35_room_partial : forall t cls frm l d e d' m n P, 0 <= fst t -> history (mdnsd_new t cls frm) l d -> sized_calls l -> legal d e OOut -> step d e OOut = Ok (d', RMsg m n) -> covers d P ->
  packet_len (encode (o_calls m)) <= Z.max (frm + 261) (12 + 260 * query_count d + room_for d P).
Proof. exact message_size. Qed.
Print Assumptions C35_room_partial.

(* Messages as message_parse returns them have addresses of the right size. *)
Theorem C35_parsed : forall b psz m s p e from, message_parse b psz = Ok (m, s, p) -> zlen (ip from) = (if family from =? AF_INET6 then 16 else 4) -> sized_call e (OIn m from).
Proof. exact parse_sized. Qed.
Print Assumptions C35_parsed.

(* A query, an answer to it that is cached, and a record that is probed for *)
Definition busy : list (tv * op) :=
  [((1, 0), OQuery (nm 113) QTYPE_A (Some 0%nat)); ((1, 0), OIn (telling [rr_a (nm 113) 1 100 [10; 0; 0; 7]]) peer);
   ((1, 0), OUnique (nm 104) QTYPE_A 60 (Some 8%nat)); ((1, 0), OSetIp 0 [10; 0; 0; 1])].
Example C35_case_room : exists d' m n, history (mdnsd_new (1, 0) 1 64) (annals 64 busy) (story 64 busy) /\ sized_calls (annals 64 busy) /\ covers (story 64 busy) [0%nat] /\ legal (story 64 busy) (at_ (1, 0)) OOut /\
  step (story 64 busy) (at_ (1, 0)) OOut = Ok (d', RMsg m n) /\ o_qr m = false /\ packet_len (encode (o_calls m)) = 41 /\ query_count (story 64 busy) = 1 /\ room_for (story 64 busy) [0%nat] = 560.
Proof.
  eexists. eexists. eexists. split; [apply annals_history|]. split; [apply recorded_sized; vm_compute; reflexivity|].
  split; [apply (covers_by 64 busy (Some 0%nat)); vm_compute; reflexivity|]. split; [apply legalb_ok; vm_compute; reflexivity|]. split; [vm_compute; reflexivity|]. split; [vm_compute; reflexivity|]. split; [vm_compute; reflexivity|]. split; vm_compute; reflexivity.
Qed.
(* The query, with the answer that is known *)
Definition busy_on : list (tv * op) := busy ++ map (fun t => ((t, 0), OOut)) [1; 2; 3; 4; 6; 8; 10; 12; 14; 16] ++ [((16, 0), OQuery (nm 113) QTYPE_A None); ((16, 0), OQuery (nm 113) QTYPE_A (Some 1%nat))].
Example C35_case_query : exists d' m n, sized_calls (annals 64 busy_on) /\ covers (story 64 busy_on) [] /\ step (story 64 busy_on) (at_ (17, 0)) OOut = Ok (d', RMsg m n) /\ o_qr m = false /\ n = 1 /\ packet_len (encode (o_calls m)) = 41.
Proof.
  eexists. eexists. eexists. split; [apply recorded_sized; vm_compute; reflexivity|].
  split; [apply (covers_by 64 busy_on None); vm_compute; reflexivity|]. split; [vm_compute; reflexivity|]. split; [vm_compute; reflexivity|]. split; vm_compute; reflexivity.
Qed.

(* ---- C66 ---- *)
(* With a frame size of at most 65274 no byte is stored past the buffer of 65535
   bytes, so long as the queries, at 260 bytes each, and the records that are
   probed for or promised fit it. *)
Theorem C66_room_partial : forall t cls frm l d e d' m n P, 0 <= fst t -> history (mdnsd_new t cls frm) l d -> sized_calls l -> legal d e OOut -> step d e OOut = Ok (d', RMsg m n) -> covers d P ->
  frm + 261 <= MAX_PACKET_LEN -> 12 + 260 * query_count d + room_for d P <= MAX_PACKET_LEN -> e_ovf (encode (o_calls m)) = false.
Proof. exact message_fits. Qed.
Print Assumptions C66_room_partial.

Example C66_case_room : 64 + 261 <= MAX_PACKET_LEN /\ 12 + 260 * query_count (story 64 busy) + room_for (story 64 busy) [0%nat] <= MAX_PACKET_LEN.
Proof. split; vm_compute; discriminate. Qed.
