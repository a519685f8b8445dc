(* Property theorems C88 and C89, and C51_sent: what is due is sent, and what a
   query says is known.
   Vocabulary: SpecDaemon.v, SpecLife.v, SpecSpace.v, SpecCache.v.  Model: Rec.v, Qry.v, Out.v, In.v, Api.v. *)
From Verif Require Import Base Hash Wire Rec Qry Out In Api SpecDaemon SpecLife SpecSpace SpecCache Scenario FactsDue PropLife.

(* ---- C88 ---- *)
(* A record made by mdnsd_unique is probed for by the next mdnsd_out if no reply
   waits to be sent. *)
Theorem C88_unique : forall d e h ty ttl cb d1 r e' d2 m n, reach d -> legal d e (OUnique h ty ttl cb) -> step d e (OUnique h ty ttl cb) = Ok (d1, RRec r) ->
  legal d1 e' OOut -> step d1 e' OOut = Ok (d2, RMsg m n) -> micros (now d) <= micros (e_now e') -> is_shutdown d = false -> uans (R d) = [] ->
  (forall x, ~ waits d Now x) -> (forall x, ~ waits d Pause x) -> probes_for r (mkevent d1 e' OOut (RMsg m n) d2).
Proof. exact unique_probed. Qed.
Print Assumptions C88_unique.

(* ... and again 250 ms after the last message with probes, until it goes on to
   be announced. *)
Theorem C88_probe : forall t0 cls frm l d e d' m n r, 0 <= fst t0 -> history (mdnsd_new t0 cls frm) l d -> legal d e OOut -> step d e OOut = Ok (d', RMsg m n) ->
  is_shutdown d = false -> uans (R d) = [] -> (forall x, ~ waits d Now x) -> (forall x, ~ waits d Pause x) -> waits d Probing r ->
  0 <= micros (e_now e) -> micros t0 <= micros (e_now e) -> (forall ev, In ev l -> micros (e_now (ev_env ev)) <= micros (e_now e)) ->
  (forall ev, In ev l -> sends_probe ev -> micros (e_now (ev_env ev)) + 250000 <= micros (e_now e)) ->
  probes_for r (mkevent d e OOut (RMsg m n) d') \/ waits d' Publish r.
Proof. exact probe_due_sent. Qed.
Print Assumptions C88_probe.

(* A record whose data is set is announced by the next mdnsd_out if no name is
   being probed for and no unicast reply waits, or the message is full. *)
Theorem C88_set : forall d e o d1 x r X e' d2 m n, reach d -> legal d e o -> sets_raw o r -> step d e o = Ok (d1, x) -> record d r X -> ~ in_probing X ->
  legal d1 e' OOut -> step d1 e' OOut = Ok (d2, RMsg m n) -> micros (now d) <= micros (e_now e') -> is_shutdown d = false -> uans (R d) = [] -> (forall y, ~ waits d1 Probing y) ->
  announces r (mkevent d1 e' OOut (RMsg m n) d2) \/ exists y Y, waits d1 Publish y /\ record d1 y Y /\ frame d <= packet_len (encode (o_calls m)) + rr_len (rr Y).
Proof. exact set_sent_soon. Qed.
Print Assumptions C88_set.

(* One name is made, probed for once; another is made 100 ms later. *)
Definition first_name : list (tv * op) := [((1, 0), OUnique (nm 97) QTYPE_A 60 (Some 7%nat)); ((1, 0), OSetIp 0 [10; 0; 0; 1]); ((1, 0), OOut)].
Definition second_made : daemon := story 1400 (first_name ++ [((1, 100000), OSleep); ((1, 100000), OUnique (nm 98) QTYPE_A 60 (Some 7%nat))]).
Lemma none_by : forall d q, head (R d) q = None -> forall x, ~ waits d q x.
Proof. intros d q E x ([|y l] & K & I); [destruct I|]. unfold queue_is in K. rewrite E in K. inversion K. Qed.
Example C88_case_unique : let d := story 1400 (first_name ++ [((1, 100000), OSleep)]) in
  step d (at_ (1, 100000)) (OUnique (nm 98) QTYPE_A 60 (Some 7%nat)) = Ok (second_made, RRec 1) /\ micros (now d) <= micros (1, 100000) /\ is_shutdown d = false /\ uans (R d) = [] /\
  (forall x, ~ waits d Now x) /\ (forall x, ~ waits d Pause x) /\
  match step second_made (at_ (1, 100000)) OOut with Ok (_, RMsg m _) => Some (length (items (o_calls m))) | _ => None end = Some 4%nat.
Proof.
  cbv zeta. split; [vm_compute; reflexivity|]. split; [vm_compute; discriminate|]. split; [vm_compute; reflexivity|]. split; [vm_compute; reflexivity|].
  split; [apply none_by; vm_compute; reflexivity|]. split; [apply none_by; vm_compute; reflexivity|vm_compute; reflexivity].
Qed.
(* The second probe *)
Example C88_case_probe : let d := story 1400 first_name in history (mdnsd_new (1, 0) 1 1400) (annals 1400 first_name) d /\ is_shutdown d = false /\ uans (R d) = [] /\
  (forall x, ~ waits d Now x) /\ (forall x, ~ waits d Pause x) /\ waits d Probing 0 /\
  (forall ev, In ev (annals 1400 first_name) -> micros (e_now (ev_env ev)) + 250000 <= micros (1, 250000)) /\
  map (fun t => match step d (at_ (1, t)) OOut with Ok (_, RMsg m _) => Some (length (items (o_calls m))) | _ => None end) [249999; 250000] = [Some 0%nat; Some 2%nat].
Proof.
  cbv zeta. split; [apply annals_history|]. split; [vm_compute; reflexivity|]. split; [vm_compute; reflexivity|]. split; [apply none_by; vm_compute; reflexivity|]. split; [apply none_by; vm_compute; reflexivity|].
  split; [apply (waits_by [0%nat]); [vm_compute; reflexivity|left; reflexivity]|]. split.
  - assert (B : forallb (fun ev => micros (e_now (ev_env ev)) + 250000 <=? micros (1, 250000)) (annals 1400 first_name) = true) by (vm_compute; reflexivity). intros ev I. rewrite forallb_forall in B. specialize (B ev I). clear - B. lia.
  - vm_compute. reflexivity.
Qed.
Example C88_case_set : legal text_made (at_ (1, 0)) (OSetRaw 0 [1; 97]) /\ step text_made (at_ (1, 0)) (OSetRaw 0 [1; 97]) = Ok (text_set, RUnit) /\ (exists X, record text_made 0 X /\ ~ in_probing X) /\
  micros (now text_made) <= micros (1, 0) /\ is_shutdown text_made = false /\ uans (R text_made) = [] /\ (forall y, ~ waits text_set Probing y) /\
  match step text_set (at_ (1, 0)) OOut with Ok (_, RMsg m _) => Some (items (o_calls m)) | _ => None end = Some [IRecord SAn (nm 97) QTYPE_TXT 1 60 [MRaw [1; 97]]].
Proof.
  split; [apply legalb_ok; vm_compute; reflexivity|]. split; [vm_compute; reflexivity|]. split; [eexists; split; [vm_compute; reflexivity|]; unfold in_probing; cbn [unique]; clear; lia|].
  split; [vm_compute; discriminate|]. split; [vm_compute; reflexivity|]. split; [vm_compute; reflexivity|]. split; [apply none_by; vm_compute; reflexivity|vm_compute; reflexivity].
Qed.

(* ---- C89 ---- *)
(* A known answer is for a question of the message and a registered query; a
   response from elsewhere brought it, of its TTL less than half has passed, and
   the TTL it is given is half of its own, less the time that has passed, and 8.
   Missing: that this is at most the time the record has left, which is false
   for TTLs below 15. *)
Theorem C89_partial : forall t0 cls0 frm l d e d' m n nm ty cls ttl x, 0 <= fst t0 -> history (mdnsd_new t0 cls0 frm) l d -> legal d e OOut -> step d e OOut = Ok (d', RMsg m n) -> o_qr m = false ->
  says m (IRecord SAn nm ty cls ttl x) ->
  cls = class d /\ says m (IQuestion nm ty cls) /\ (exists y, registered d y /\ is_for y nm ty) /\
  exists ev m' from a y, In ev l /\ ev_call ev = OIn m' from /\ h_qr (m_header m') <> 0 /\ In a (m_an m') /\ rr_ttl a <> 0 /\ ~ own (ev_before ev) from /\ same_rr a y /\
    rr_name a = nm /\ (rr_type a = ty \/ ty = QTYPE_ANY) /\ x = a_copy y /\ ttl = fst (e_now (ev_env ev)) + rr_ttl a / 2 + 8 - fst (e_now e) /\ fst (e_now e) < fst (e_now (ev_env ev)) + rr_ttl a / 2 /\
    (15 <= rr_ttl a -> ttl <= fst (e_now (ev_env ev)) + rr_ttl a - fst (e_now e)).
Proof. exact known_brought. Qed.
Print Assumptions C89_partial.

(* What the cache holds for the question is listed.  Missing: the case that one
   of these answers has been held too long or does not fit, when others may be
   left out as well. *)
Theorem C89_listed_partial : forall d e d' m n y c, reach d -> legal d e OOut -> step d e OOut = Ok (d', RMsg m n) -> o_qr m = false ->
  registered d y -> says m (IQuestion (q_nm y) (q_ty y) (class d)) -> not_probing d (q_nm y) ->
  cache_holds d c -> a_name (c_rr c) = q_nm y -> a_type (c_rr c) = q_ty y -> fst (e_now e) < a_ttl (c_rr c) ->
  says m (IRecord SAn (a_name (c_rr c)) (a_type (c_rr c)) (class d) (a_ttl (c_rr c) - fst (e_now e)) (a_copy (c_rr c))) \/
  exists c', cache_holds d c' /\ a_name (c_rr c') = q_nm y /\ (a_type (c_rr c') = q_ty y \/ q_ty y = QTYPE_ANY) /\
    (a_ttl (c_rr c') <= fst (e_now e) + 8 \/ frame d <= packet_len (encode (o_calls m)) + rr_len (c_rr c')).
Proof. exact known_complete. Qed.
Print Assumptions C89_listed_partial.

(* Two addresses are known when the question is asked. *)
Definition two_known : list (tv * op) :=
  [((1, 0), OIn (telling [rr_a (nm 97) 1 100 [10; 0; 0; 5]; rr_a (nm 97) 1 60 [10; 0; 0; 6]]) peer); ((4, 0), OQuery (nm 97) QTYPE_A (Some 3%nat))].
Definition asked_at (l : list (tv * op)) (t : Z) : option (list item) := match step (story 1400 l) (at_ (t, 0)) OOut with Ok (_, RMsg m _) => Some (items (o_calls m)) | _ => None end.
Example C89_case : history (mdnsd_new (1, 0) 1 1400) (annals 1400 two_known) (story 1400 two_known) /\ (exists c, cache_holds (story 1400 two_known) c /\ a_ttl (c_rr c) = 59) /\
  (exists y, registered (story 1400 two_known) y /\ is_for y (nm 97) QTYPE_A) /\ not_probing (story 1400 two_known) (nm 97) /\
  asked_at two_known 4 = Some [IQuestion (nm 97) QTYPE_A 1; IRecord SAn (nm 97) QTYPE_A 1 35 [MRaw [10; 0; 0; 6]]; IRecord SAn (nm 97) QTYPE_A 1 55 [MRaw [10; 0; 0; 5]]].
Proof.
  split; [apply annals_history|]. split; [eexists; split; [vm_compute; right; left; reflexivity|reflexivity]|]. split; [eexists; split; [exists 0%nat; split; [vm_compute; left; reflexivity|vm_compute; reflexivity]|split; reflexivity]|].
  split; [|vm_compute; reflexivity]. intros r X _ _. apply none_by. vm_compute. reflexivity.
Qed.

(* A record with a TTL of 10, received at 1: at 1 it is said to be known for 13
   seconds. *)
Definition short_lived : list (tv * op) := [((1, 0), OIn (telling [rr_a (nm 97) 1 10 [10; 0; 0; 5]]) peer); ((1, 0), OQuery (nm 97) QTYPE_A (Some 3%nat))].
Theorem C89_refuted : exists l d e d' m n nm ty cls ttl x, history (mdnsd_new (1, 0) 1 1400) l d /\ legal d e OOut /\ step d e OOut = Ok (d', RMsg m n) /\ o_qr m = false /\ says m (IRecord SAn nm ty cls ttl x) /\
  forall ev m' from a, In ev l -> ev_call ev = OIn m' from -> In a (m_an m') -> fst (e_now (ev_env ev)) + rr_ttl a - fst (e_now e) < ttl.
Proof.
  exists (annals 1400 short_lived), (story 1400 short_lived), (at_ (1, 0)). do 2 eexists. exists 1. do 5 eexists. split; [apply annals_history|]. split; [apply legalb_ok; vm_compute; reflexivity|].
  split; [vm_compute; reflexivity|]. split; [vm_compute; reflexivity|]. split; [vm_compute; right; left; reflexivity|].
  intros ev m' from a I A B. unfold annals, short_lived in I. vm_compute in I. destruct I as [<-|[<-|[]]]; vm_compute in A; try discriminate. injection A as <- <-. destruct B as [<-|[]]. vm_compute. reflexivity.
Qed.
Print Assumptions C89_refuted.

(* A record with a TTL of 100, received at 1, is not listed at 4 though
   there is room, because another address with a TTL of 2 came after it. *)
Definition hidden : list (tv * op) :=
  [((1, 0), OIn (telling [rr_a (nm 97) 1 100 [10; 0; 0; 5]]) peer); ((2, 0), OIn (telling [rr_a (nm 97) 1 2 [10; 0; 0; 6]]) peer); ((4, 0), OQuery (nm 97) QTYPE_A (Some 3%nat))].
Theorem C89_listed_refuted : exists d e d' m n y c, reach d /\ legal d e OOut /\ step d e OOut = Ok (d', RMsg m n) /\ o_qr m = false /\
  registered d y /\ says m (IQuestion (q_nm y) (q_ty y) (class d)) /\ not_probing d (q_nm y) /\
  cache_holds d c /\ a_name (c_rr c) = q_nm y /\ a_type (c_rr c) = q_ty y /\ fst (e_now e) + 50 < a_ttl (c_rr c) /\ packet_len (encode (o_calls m)) + rr_len (c_rr c) < frame d /\
  forall s n ty cls ttl x, ~ says m (IRecord s n ty cls ttl x).
Proof.
  exists (story 1400 hidden), (at_ (4, 0)). do 2 eexists. exists 1. do 2 eexists. split; [apply story_reach|]. split; [apply legalb_ok; vm_compute; reflexivity|]. split; [vm_compute; reflexivity|]. split; [reflexivity|].
  split; [exists 0%nat; split; [vm_compute; left; reflexivity|vm_compute; reflexivity]|]. split; [vm_compute; left; reflexivity|]. split; [intros r X _ _; apply none_by; vm_compute; reflexivity|].
  split; [vm_compute; right; left; reflexivity|]. split; [reflexivity|]. split; [reflexivity|]. split; [vm_compute; reflexivity|]. split; [vm_compute; reflexivity|].
  intros s n ty cls ttl x I. vm_compute in I. destruct I as [I|[]]. discriminate.
Qed.
Print Assumptions C89_listed_refuted.

(* ---- C51 ---- *)
(* The time from which the next sending of a record is reckoned is that of the
   multicast it was last in. *)
Theorem C51_sent : forall d e d' m n r Y, reach d -> legal d e OOut -> step d e OOut = Ok (d', RMsg m n) -> singular d r -> multicasts r (mkevent d e OOut (RMsg m n) d') -> record d' r Y ->
  last_sent Y = e_now e.
Proof. exact sent_when. Qed.
Print Assumptions C51_sent.
Example C51_case_sent : singular text_set 0 /\ exists d' m, step text_set (at_ (9, 5)) OOut = Ok (d', RMsg m 1) /\ multicasts 0 (mkevent text_set (at_ (9, 5)) OOut (RMsg m 1) d') /\ exists Y, record d' 0 Y /\ last_sent Y = (9, 5) /\ expires Y = 69.
Proof.
  split; [apply singular_by; [apply story_reach|vm_compute; reflexivity]|]. do 2 eexists. split; [vm_compute; reflexivity|]. split.
  - do 3 eexists. split; [reflexivity|]. split; [reflexivity|]. split; [reflexivity|]. split; [vm_compute; reflexivity|]. split; [vm_compute; reflexivity|]. vm_compute. left. reflexivity.
  - eexists. split; [vm_compute; reflexivity|]. split; reflexivity.
Qed.
