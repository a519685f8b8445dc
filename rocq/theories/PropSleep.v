(* The properties of mdnsd_sleep and of delays: C49, C50, C51, C52, C55. *)
From Verif Require Import Base Wire Rec Qry Out In Api SpecDaemon SpecLife Scenario FactsSleep FactsBlank.
From Verif Require PropLookup.

(* ---- C49 ---- *)
(* Missing: that the microseconds are below 1000000, which is false. *)
Theorem C49_partial : forall d e d' t, reach d -> step d e OSleep = Ok (d', RTime t) -> 0 <= fst t /\ 0 <= snd t <= 1000000.
Proof. exact sleep_valid. Qed.
Print Assumptions C49_partial.

(* Two seconds until the next announcement *)
Definition announced : list (tv * op) := [((1, 0), OShared (nm 97) QTYPE_TXT 60); ((1, 0), OSetRaw 0 [1; 97]); ((1, 0), OOut)].
Example C49_case : reach (story 1400 announced) /\ match step (story 1400 announced) (at_ (1, 400000)) OSleep with Ok (_, RTime t) => t = (1, 600000) | _ => False end.
Proof. split; [apply story_reach|]. vm_compute. reflexivity. Qed.
Theorem C49_refuted : exists d e d' t, reach d /\ legal d e OSleep /\ step d e OSleep = Ok (d', RTime t) /\ snd t = 1000000.
Proof.
  exists (story 1400 announced), (at_ (1, 0)). eexists. eexists. split; [apply story_reach|]. split; [apply legalb_ok; reflexivity|]. split; [vm_compute; reflexivity|reflexivity].
Qed.
Print Assumptions C49_refuted.

(* ---- C50 ---- *)
Theorem C50_exact : forall d e d' t, reach d -> step d e OSleep = Ok (d', RTime t) ->
  (uans (R d) <> [] \/ (exists r, waits d Now r) -> t = (0, 0)) /\
  (uans (R d) = [] -> (forall r, ~ waits d Now r) ->
    ((exists r, waits d Pause r) -> micros t = remaining (e_now e) (t_pause (R d))) /\
    ((forall r, ~ waits d Pause r) ->
      ((exists r, waits d Probing r) -> micros t = remaining (e_now e) (t_probe (R d))) /\
      ((forall r, ~ waits d Probing r) -> (exists r, waits d Publish r) -> micros t = remaining (e_now e) (t_publish (R d))))).
Proof. exact sleep_exact. Qed.
Print Assumptions C50_exact.

(* With nothing queued, no query is overslept. *)
Theorem C50_queries : forall t0 cls frm l d e d' t x, 0 < fst t0 -> history (mdnsd_new t0 cls frm) l d -> forward l -> fst (now d) <= fst (e_now e) ->
  step d e OSleep = Ok (d', RTime t) -> uans (R d) = [] -> (forall r, idle d r) -> registered d x -> q_next x <> 0 ->
  fst t <= Z.max 0 (q_next x - fst (e_now e)) /\ snd t = 0.
Proof. exact sleep_query. Qed.
Print Assumptions C50_queries.

Definition curious : list (tv * op) := [((1, 0), OQuery (nm 97) QTYPE_A (Some 0%nat)); ((1, 0), OOut); ((2, 0), OOut); ((3, 0), OQuery (nm 98) QTYPE_A (Some 1%nat)); ((3, 0), OOut)].
Example C50_case :
  map (fun l => match step (story 1400 l) (at_ (20, 30)) OSleep with Ok (_, RTime t) => t | _ => (9, 9) end)
    [announced; [((20, 25), OUnique (nm 97) QTYPE_A 60 (Some 0%nat))]; announced ++ map (fun t => ((t, 0), OOut)) [3; 5; 7; 9] ++ [((20, 25), OIn (asking 5 [mkquestion (nm 97) QTYPE_TXT 1] []) peer)];
     announced ++ map (fun t => ((t, 0), OOut)) [3; 5; 7; 9] ++ [((20, 25), OIn (asking 5 [mkquestion (nm 97) QTYPE_TXT 1] []) peer); ((20, 30), OUnique (nm 98) QTYPE_A 60 (Some 0%nat))]] =
    [(0, 0); (0, 0); (0, 40); (0, 40)] /\
  step (story 1400 curious) (at_ (3, 0)) OSleep = Ok (with_now (story 1400 curious) (3, 0), RTime (1, 0)) /\
  forward (annals 1400 curious) /\ (forall r, idle (story 1400 curious) r) /\
  exists x y, registered (story 1400 curious) x /\ registered (story 1400 curious) y /\ (q_nm x, q_next x, q_nm y, q_next y) = (nm 97, 4, nm 98, 4).
Proof.
  split; [vm_compute; reflexivity|]. split; [vm_compute; reflexivity|].
  split. { apply forward_by. vm_compute. reflexivity. }
  split; [apply idle_by; vm_compute; reflexivity|].
  eexists. eexists. split; [|split]; [exists 0%nat; split; [vm_compute; auto|vm_compute; reflexivity]|exists 1%nat; split; [vm_compute; auto|vm_compute; reflexivity]|vm_compute; reflexivity].
Qed.

(* ---- C51 ---- *)
(* Proved for a record that mdnsd_get_published lists first, when the daemon
   has nothing else to do.  Missing: the other records, for which it is false. *)
Theorem C51_partial : forall d e d' t host r X, reach d -> step d e OSleep = Ok (d', RTime t) -> uans (R d) = [] -> (forall r, idle d r) -> checkq (Q d) = 0 -> fst (e_now e) <= expireall d ->
  hd_error (mdnsd_get_published (R d) host) = Some r -> record d r X ->
  (expires X <= fst (e_now e) + 2 -> waits d' Pause r /\ t = (0, 0)) /\ fst t <= Z.max 0 (expires X - 2 - fst (e_now e)) /\ snd t = 0.
Proof. exact sleep_first. Qed.
Print Assumptions C51_partial.

(* Two records in one bucket *)
Definition twins : list (tv * op) :=
  [((1, 0), OShared PropLookup.clash QTYPE_TXT 10); ((1, 0), OSetRaw 0 [1; 97]); ((1, 0), OShared (nm 97) QTYPE_TXT 1000); ((1, 0), OSetRaw 1 [1; 97])] ++ map (fun t => ((t, 0), OOut)) [1; 3; 5; 7; 9].
Example C51_case : uans (R (story 1400 twins)) = [] /\ (forall r, idle (story 1400 twins) r) /\ checkq (Q (story 1400 twins)) = 0 /\ expireall (story 1400 twins) = 86401 /\
  hd_error (mdnsd_get_published (R (story 1400 twins)) (nm 97)) = Some 1%nat /\
  (exists X, record (story 1400 twins) 1 X /\ expires X = 1007) /\
  map (fun s => match step (story 1400 twins) (at_ (s, 0)) OSleep with Ok (d, RTime t) => (t, a_pause (R d)) | _ => ((9, 9), None) end) [10; 1000; 1005; 1010] =
    [((995, 0), None); ((5, 0), None); ((0, 0), Some 1%nat); ((0, 0), Some 1%nat)].
Proof.
  split; [vm_compute; reflexivity|]. split; [apply idle_by; vm_compute; reflexivity|]. split; [vm_compute; reflexivity|]. split; [vm_compute; reflexivity|]. split; [vm_compute; reflexivity|].
  split; [eexists; split; vm_compute; reflexivity|vm_compute; reflexivity].
Qed.

(* The record expires at the receivers, and the daemon sleeps on. *)
Theorem C51_refuted : exists d e d' t r X, reach d /\ legal d e OSleep /\ step d e OSleep = Ok (d', RTime t) /\ published d' r /\ record d' r X /\ a_ttl (rr X) <> 0 /\
  (forall r, idle d' r) /\ expires X < fst (e_now e) /\ 900 < fst t.
Proof.
  exists (story 1400 twins), (at_ (60, 0)). eexists. eexists. exists 0%nat. eexists. split; [apply story_reach|]. split; [apply legalb_ok; reflexivity|]. split; [vm_compute; reflexivity|].
  split; [vm_compute; auto|]. split; [vm_compute; reflexivity|]. split; [discriminate|]. split; [apply idle_by; vm_compute; reflexivity|]. split; vm_compute; reflexivity.
Qed.
Print Assumptions C51_refuted.

(* ---- C52 ---- *)
(* Microseconds, not milliseconds *)
Theorem C52_partial : forall d e m from d' n r, reach d -> legal d e (OIn m from) -> h_qr (m_header m) = 0 -> 0 <= snd (e_now e) -> step d e (OIn m from) = Ok (d', RInt n) ->
  waits d' Pause r -> ~ waits d Pause r -> 20 <= remaining (e_now e) (t_pause (R d')) <= 119.
Proof. exact in_delay_range. Qed.
Print Assumptions C52_partial.

Definition calm : list (tv * op) := announced ++ map (fun t => ((t, 0), OOut)) [3; 5; 7; 9].
Theorem C52_refuted : exists d e m from d' n r, reach d /\ legal d e (OIn m from) /\ h_qr (m_header m) = 0 /\ 0 <= snd (e_now e) /\ step d e (OIn m from) = Ok (d', RInt n) /\
  waits d' Pause r /\ ~ waits d Pause r /\ ~ 20000 <= remaining (e_now e) (t_pause (R d')) <= 120000.
Proof.
  exists (story 1400 calm), (at_ (20, 777)), (asking 5 [mkquestion (nm 97) QTYPE_TXT 1] []), peer. eexists. eexists. exists 0%nat. split; [apply story_reach|]. split; [apply legalb_ok; reflexivity|].
  split; [reflexivity|]. split; [vm_compute; discriminate|]. split; [vm_compute; reflexivity|]. split; [apply (waits_by [0%nat]); [vm_compute; reflexivity|left; reflexivity]|].
  split; [apply idle_by; vm_compute; reflexivity|]. vm_compute. intros [K _]. apply K. reflexivity.
Qed.
Print Assumptions C52_refuted.
Example C52_case : match step (story 1400 calm) (at_ (20, 777)) (OIn (asking 5 [mkquestion (nm 97) QTYPE_TXT 1] []) peer) with
  | Ok (d, RInt _) => a_pause (R d) = Some 0%nat /\ 20 <= remaining (20, 777) (t_pause (R d)) <= 119
  | _ => False
  end.
Proof. vm_compute. split; [reflexivity|split; discriminate]. Qed.

(* ---- C55 ---- *)
(* Proved for the answer section of multicast responses, for shared records,
   as long as mdnsd_shutdown is not called and mdnsd_sleep only with something
   left to do. *)
Theorem C55_partial : forall d e h ty ttl d1 r l d2, reach d -> legal d e (OShared h ty ttl) -> step d e (OShared h ty ttl) = Ok (d1, RRec r) -> history d1 l d2 ->
  (forall ev, In ev l -> ~ sets (ev_call ev) r /\ ev_call ev <> OShutdown /\ (ev_call ev = OSleep -> pending (ev_before ev))) ->
  (forall q, ~ waits d2 q r) /\
  forall e2 d3 m n, legal d2 e2 OOut -> uans (R d2) = [] -> step d2 e2 OOut = Ok (d3, RMsg m n) -> o_qr m = true ->
  exists La, answers_of m = map (as_answer (class d2)) La /\ NoDup (map fst La) /\ forall x X, In (x, X) La -> record d2 x X /\ x <> r.
Proof. exact not_sent_unset. Qed.
Print Assumptions C55_partial.

(* Record 1 has no data when another host asks for it and the application sleeps;
   record 0 is announced. *)
Definition unfinished : list (tv * op) :=
  [((2, 0), OIn (asking 5 [mkquestion (nm 98) QTYPE_TXT 1] []) peer); ((2, 0), OSleep); ((3, 0), ODone 1)].
Definition before_it : list (tv * op) := [((1, 0), OShared (nm 97) QTYPE_TXT 60); ((1, 0), OSetRaw 0 [1; 97])].
Definition waiting_calls (ev : event) : bool :=
  match ev_call ev with
  | OIn _ _ | ODone _ => true
  | OSleep => linkedb (next_of (ev_before ev)) (head (R (ev_before ev)) Publish) [0%nat]
  | _ => false
  end.
Example C55_case : exists d1 l d2 d3 m n, legal (story 1400 before_it) (at_ (1, 0)) (OShared (nm 98) QTYPE_TXT 60) /\ step (story 1400 before_it) (at_ (1, 0)) (OShared (nm 98) QTYPE_TXT 60) = Ok (d1, RRec 1) /\ history d1 l d2 /\
  length l = 3%nat /\ (forall ev, In ev l -> ~ sets (ev_call ev) 1%nat /\ ev_call ev <> OShutdown /\ (ev_call ev = OSleep -> pending (ev_before ev))) /\
  legal d2 (at_ (3, 0)) OOut /\ uans (R d2) = [] /\ step d2 (at_ (3, 0)) OOut = Ok (d3, RMsg m n) /\ o_qr m = true /\ length (answers_of m) = 1%nat.
Proof.
  eexists. exists (recorded (story 1400 (before_it ++ [((1, 0), OShared (nm 98) QTYPE_TXT 60)])) unfinished). eexists. eexists. eexists. eexists.
  split; [apply legalb_ok; vm_compute; reflexivity|]. split; [vm_compute; reflexivity|]. split; [exact (recorded_history _ _)|]. split; [vm_compute; reflexivity|]. split.
  { intros ev I. assert (K : forallb waiting_calls (recorded (story 1400 (before_it ++ [((1, 0), OShared (nm 98) QTYPE_TXT 60)])) unfinished) = true) by (vm_compute; reflexivity).
    rewrite forallb_forall in K. specialize (K ev I). clear - K. unfold waiting_calls in K. destruct (ev_call ev); try discriminate; (split; [intros []|]); (split; [discriminate|]); try discriminate.
    intros _. right. left. exists Publish, 0%nat. apply (waits_by [0%nat]); [exact K|left; reflexivity]. }
  split; [apply legalb_ok; vm_compute; reflexivity|]. split; [vm_compute; reflexivity|]. split; [vm_compute; reflexivity|]. split; vm_compute; reflexivity.
Qed.

(* No function that sets data is called; the record is sent in a response, with
   no data. *)
Theorem C55_refuted : exists l d r m n ev, history (mdnsd_new (1, 0) 1 1400) l d /\ made l r /\ never_set l r /\ In ev l /\ ev_call ev = OOut /\ ev_result ev = RMsg m n /\ o_qr m = true /\
  exists X, record d r X /\ o_calls m = [MRr SAn (a_name (rr X)) (a_type (rr X)) 1 (a_ttl (rr X))].
Proof.
  set (l := [((100, 0), OShared (nm 97) QTYPE_A 60); ((100, 0), OSleep); ((101, 0), OOut)]).
  exists (annals 1400 l), (story 1400 l), 0%nat. eexists. eexists. eexists. split; [apply annals_history|]. split; [apply made_by; vm_compute; reflexivity|]. split; [apply never_set_by; vm_compute; reflexivity|].
  split; [vm_compute; right; right; left; reflexivity|]. split; [reflexivity|]. split; [reflexivity|]. split; [reflexivity|]. eexists. split; vm_compute; reflexivity.
Qed.
Print Assumptions C55_refuted.
