(* The properties of the cache and of what queries are told: C41-C48.
   Vocabulary: SpecDaemon.v, SpecCache.v.  Model: Qry.v, In.v, Out.v. *)
From Verif Require Import Base Hash Wire Rec Qry Out In Api SpecDaemon SpecCache Scenario FactsCache FactsTold FactsAny.

(* ---- C41 ---- *)
Theorem C41_cache : forall d, reach d -> ForallOrdPairs (fun c c' => ~ same_content (c_rr c) (c_rr c')) (concat (cache (Q d))).
Proof. exact no_duplicates. Qed.
Print Assumptions C41_cache.

(* The same records twice, with other TTLs, and one more address *)
Definition hoard : list (tv * op) :=
  [((1, 0), OIn (telling [rr_a (nm 97) 1 100 [10; 0; 0; 5]; rr_txt (nm 97) 1 50 [1; 65]]) peer);
   ((2, 0), OIn (telling [rr_a (nm 97) 1 200 [10; 0; 0; 5]; rr_a (nm 97) 1 100 [10; 0; 0; 6]; rr_txt (nm 97) 1 60 [1; 65]; rr_a (nm 97) 1 200 [10; 0; 0; 5]]) peer)].
Example C41_case : map (fun c => (a_type (c_rr c), a_ip (c_rr c), a_ttl (c_rr c))) (concat (cache (Q (story 1400 hoard)))) =
  [(QTYPE_A, [10; 0; 0; 6], 60); (QTYPE_TXT, [0; 0; 0; 0], 40); (QTYPE_A, [10; 0; 0; 5], 110)].
Proof. vm_compute. reflexivity. Qed.

(* ---- C42 ---- *)
Theorem C42_source : forall t cls frm l d, 0 <= fst t -> history (mdnsd_new t cls frm) l d -> forall c, cache_holds d c -> brought l (c_rr c).
Proof. exact cache_brought. Qed.
Print Assumptions C42_source.
Example C42_case : history (mdnsd_new (1, 0) 1 1400) (annals 1400 hoard) (story 1400 hoard) /\ exists c, cache_holds (story 1400 hoard) c /\ a_ttl (c_rr c) = 2 + 200 / 2 + 8.
Proof.
  split; [apply annals_history|]. eexists. split; [vm_compute; right; right; left; reflexivity|reflexivity].
Qed.

(* ---- C43 ---- *)
(* An answer that a later answer of the message does not take back: a goodbye
   removes the record, a cache flush everything of its name and type but the
   record itself. *)
Theorem C43_removes : forall d e m from d' x pre a post, reach d -> legal d e (OIn m from) -> is_shutdown d = false -> foreign d e from -> h_qr (m_header m) <> 0 ->
  m_an m = pre ++ a :: post -> step d e (OIn m from) = Ok (d', x) -> forall c, cache_holds d' c ->
  (exists b, In b post /\ rr_ttl b <> 0 /\ same_rr b (c_rr c)) \/
  ((rr_ttl a = 0 -> ~ same_rr a (c_rr c)) /\ (flushes d a (c_rr c) -> rr_ttl a <> 0 /\ same_rr a (c_rr c))).
Proof. exact answer_effect. Qed.
Print Assumptions C43_removes.

(* Nothing else is removed but what is past its time. *)
Theorem C43_spares : forall d e m from d' x, reach d -> legal d e (OIn m from) -> is_shutdown d = false -> foreign d e from -> h_qr (m_header m) <> 0 ->
  step d e (OIn m from) = Ok (d', x) -> forall c, cache_holds d c -> fst (e_now e) < a_ttl (c_rr c) ->
  (forall a, In a (m_an m) -> ~ says_bye a (c_rr c) /\ ~ flushes d a (c_rr c)) -> exists c', cache_holds d' c' /\ c_id c' = c_id c /\ same_content (c_rr c') (c_rr c).
Proof. exact spared. Qed.
Print Assumptions C43_spares.

Definition entries (d : daemon) : list (Z * list Z * Z) := map (fun c => (a_type (c_rr c), a_ip (c_rr c), a_ttl (c_rr c))) (concat (cache (Q d))).
Example C43_case :
  foreign (story 1400 hoard) (at_ (3, 0)) peer /\ is_shutdown (story 1400 hoard) = false /\
  map (fun m => entries (story 1400 (hoard ++ [((3, 0), OIn m peer)]))) [telling [rr_a (nm 97) 1 0 [10; 0; 0; 5]]; telling [rr_a (nm 97) 32769 100 [10; 0; 0; 5]]; telling [rr_txt (nm 97) 32769 0 [1; 65]]] =
    [[(QTYPE_A, [10; 0; 0; 6], 60); (QTYPE_TXT, [0; 0; 0; 0], 40)];
     [(QTYPE_A, [10; 0; 0; 5], 61); (QTYPE_TXT, [0; 0; 0; 0], 40)];
     [(QTYPE_A, [10; 0; 0; 6], 60); (QTYPE_A, [10; 0; 0; 5], 110)]].
Proof.
  split; [split; [vm_compute; discriminate|intros l [K|K]; vm_compute in K; discriminate]|]. split; vm_compute; reflexivity.
Qed.

(* ---- C44 ---- *)
(* The daily sweep.  Missing: that mdnsd_list returns no entry whose TTL has
   passed, which is false. *)
Theorem C44_partial : forall d e d' m, reach d -> legal d e OOut -> is_shutdown d = false -> expireall d < fst (e_now e) ->
  step d e OOut = Ok (d', RMsg m 0) -> forall c, cache_holds d' c -> fst (e_now e) < a_ttl (c_rr c).
Proof. exact sweep_clears. Qed.
Print Assumptions C44_partial.
Example C44_case : expireall (story 1400 hoard) = 86401 /\
  exists d' m, step (story 1400 (hoard ++ [((50, 0), OIn (telling [rr_a (nm 98) 1 300000 [10; 0; 0; 7]]) peer)])) (at_ (86402, 0)) OOut = Ok (d', RMsg m 0) /\
  entries d' = [(QTYPE_A, [10; 0; 0; 7], 150058)].
Proof. split; [vm_compute; reflexivity|]. eexists. eexists. split; vm_compute; reflexivity. Qed.

(* Received at 1 with a TTL of 10 and still there at 1000, the daemon having
   been run meanwhile *)
Theorem C44_refuted : exists l d c, history (mdnsd_new (1, 0) 1 1400) l d /\ mdnsd_list (Q d) (nm 97) QTYPE_A None = Ok (Some c) /\ fst (now d) = 1000 /\
  forall ev m from a, In ev l -> ev_call ev = OIn m from -> In a (m_an m) -> fst (e_now (ev_env ev)) + rr_ttl a = 11.
Proof.
  set (l := [((1, 0), OIn (telling [rr_a (nm 97) 1 10 [10; 0; 0; 5]]) peer); ((500, 0), OOut); ((1000, 0), OOut)]).
  exists (annals 1400 l), (story 1400 l). eexists. split; [apply annals_history|]. split; [vm_compute; reflexivity|]. split; [vm_compute; reflexivity|].
  intros ev m from a I A B. unfold annals, l in I. vm_compute in I.
  destruct I as [<-|[<-|[<-|[]]]]; vm_compute in A; try discriminate. injection A as <- <-. destruct B as [<-|[]]. reflexivity.
Qed.
Print Assumptions C44_refuted.

(* ---- C45 ---- *)
(* A response with one answer: a record that is not in the cache, or that is
   flushed before it is added, is told to the query once, and nothing else is
   told of as new. *)
Theorem C45_new : forall d e m from a d' x, reach d -> legal d e (OIn m from) -> is_shutdown d = false -> foreign d e from -> h_qr (m_header m) <> 0 -> m_an m = [a] -> (forall k, e_cb e k = false) ->
  step d e (OIn m from) = Ok (d', x) -> exists T, calls_made (mkevent d e (OIn m from) x d') T /\
    ((rr_ttl a = 0 \/ (exists c, cache_holds d c /\ same_rr a (c_rr c) /\ ~ flushes d a (c_rr c)) \/ (forall y, registered d y -> ~ is_for y (rr_name a) (rr_type a))) /\ news T = [] \/
     rr_ttl a <> 0 /\ (forall c, cache_holds d c -> same_rr a (c_rr c) -> flushes d a (c_rr c)) /\
       exists y v, registered d y /\ is_for y (rr_name a) (rr_type a) /\ same_rr a v /\ a_ttl v = fst (e_now e) + rr_ttl a / 2 + 8 /\ news T = [(q_cb y, v)]).
Proof. exact one_answer. Qed.
Print Assumptions C45_new.

(* More answers act like as many messages, on cache and queries, whatever the
   callbacks return. *)
Theorem C45_answers : forall d e m m1 m2 from d' x d1 x1 d2 x2, is_shutdown d = false -> foreign d e from ->
  h_qr (m_header m) <> 0 -> h_qr (m_header m1) <> 0 -> h_qr (m_header m2) <> 0 -> m_an m = m_an m1 ++ m_an m2 ->
  step d e (OIn m from) = Ok (d', x) -> step d e (OIn m1 from) = Ok (d1, x1) -> step d1 e (OIn m2 from) = Ok (d2, x2) -> Q d2 = Q d'.
Proof. exact in_pieces. Qed.
Print Assumptions C45_answers.

(* What goes is told of, with TTL 0, to a query that stays registered. *)
Theorem C45_gone : forall t cls frm l d e o x d', 0 <= fst t -> history (mdnsd_new t cls frm) l d -> asks_exact l -> legal d e o -> (forall n ty cb, o <> OQuery n ty cb) -> step d e o = Ok (d', x) ->
  exists T, calls_made (mkevent d e o x d') T /\
    forall c y y', cache_holds d c -> registered d y -> is_for y (a_name (c_rr c)) (a_type (c_rr c)) -> registered d' y' -> is_for y' (a_name (c_rr c)) (a_type (c_rr c)) ->
      (exists c', cache_holds d' c' /\ same_content (c_rr c') (c_rr c)) \/ In (q_cb y, set_ttl (c_rr c) 0) T.
Proof. exact gone_told. Qed.
Print Assumptions C45_gone.

Theorem C45_only : forall d e o x d', reach d -> legal d e o -> step d e o = Ok (d', x) -> exists T, calls_made (mkevent d e o x d') T /\
  forall p, In p T -> exists y, registered d y /\ fst p = q_cb y /\ a_name (snd p) = q_nm y /\ (a_type (snd p) = q_ty y \/ q_ty y = QTYPE_ANY).
Proof. exact called_right. Qed.
Print Assumptions C45_only.

(* New, refreshed, of another type, withdrawn, swept *)
Definition listener : list (tv * op) :=
  [((1, 0), OQuery (nm 97) QTYPE_A (Some 7%nat)); ((1, 0), OIn (telling [rr_a (nm 97) 1 100 [10; 0; 0; 5]]) peer); ((2, 0), OIn (telling [rr_a (nm 97) 1 100 [10; 0; 0; 5]]) peer);
   ((3, 0), OIn (telling [rr_txt (nm 97) 1 100 [1; 65]]) peer); ((4, 0), OIn (telling [rr_a (nm 97) 1 100 [10; 0; 0; 6]]) peer)].
Example C45_case :
  map (fun l => map (fun p => (fst p, a_ip (snd p), a_ttl (snd p))) (told (Q (story 1400 (listener ++ l)))))
    [[]; [((5, 0), OIn (telling [rr_a (nm 97) 1 0 [10; 0; 0; 5]]) peer)]; [((86402, 0), OOut)]] =
    [[(7%nat, [10; 0; 0; 5], 59); (7%nat, [10; 0; 0; 6], 62)];
     [(7%nat, [10; 0; 0; 5], 59); (7%nat, [10; 0; 0; 6], 62); (7%nat, [10; 0; 0; 5], 0)];
     [(7%nat, [10; 0; 0; 5], 59); (7%nat, [10; 0; 0; 6], 62); (7%nat, [10; 0; 0; 6], 0); (7%nat, [10; 0; 0; 5], 0)]] /\
  (exists y, registered (story 1400 listener) y /\ is_for y (nm 97) QTYPE_A) /\ foreign (story 1400 listener) (at_ (5, 0)) peer.
Proof.
  split; [vm_compute; reflexivity|]. split; [|split; [vm_compute; discriminate|intros l [K|K]; vm_compute in K; discriminate]].
  eexists. split; [exists 0%nat; split; [vm_compute; auto|vm_compute; reflexivity]|split; vm_compute; reflexivity].
Qed.

(* ---- C46 ---- *)
(* mdnsd_query never calls the callback ... *)
Theorem C46_silent : forall d e host type answer d' x, reach d -> legal d e (OQuery host type answer) -> step d e (OQuery host type answer) = Ok (d', x) -> told (Q d') = told (Q d).
Proof. exact query_silent. Qed.
Print Assumptions C46_silent.
Example C46_case : reach (story 1400 hoard) /\ legal (story 1400 hoard) (at_ (3, 0)) (OQuery (nm 97) QTYPE_A (Some 7%nat)) /\
  match step (story 1400 hoard) (at_ (3, 0)) (OQuery (nm 97) QTYPE_A (Some 7%nat)) with Ok (d, _) => length (qlist (Q d)) = 1%nat | _ => False end.
Proof. split; [apply story_reach|]. split; [apply legalb_ok; reflexivity|]. vm_compute. reflexivity. Qed.
(* ... and it is not called later either when the record is heard again. *)
Theorem C46_refuted : exists d1 l d2 c y, reach d1 /\ history d1 l d2 /\ cache_holds d1 c /\ a_name (c_rr c) = nm 97 /\ a_type (c_rr c) = QTYPE_A /\
  registered d2 y /\ is_for y (nm 97) QTYPE_A /\ told (Q d2) = [] /\ (exists c', cache_holds d2 c' /\ same_content (c_rr c') (c_rr c)) /\ fst (now d1) + 30 < fst (now d2).
Proof.
  set (l := [((3, 0), OQuery (nm 97) QTYPE_A (Some 7%nat)); ((3, 0), OOut); ((4, 0), OOut); ((6, 0), OIn (telling [rr_a (nm 97) 1 100 [10; 0; 0; 5]]) peer); ((10, 0), OOut); ((20, 0), OOut); ((40, 0), OOut)]).
  exists (story 1400 hoard), (recorded (story 1400 hoard) l), (fst (played (story 1400 hoard) l)). eexists. eexists. split; [apply story_reach|]. split; [apply recorded_history|].
  split. { vm_compute. right. right. left. reflexivity. }
  split; [reflexivity|]. split; [reflexivity|]. split; [exists 0%nat; split; [vm_compute; auto|vm_compute; reflexivity]|]. split; [split; vm_compute; reflexivity|]. split; [vm_compute; reflexivity|].
  split; [|vm_compute; reflexivity]. eexists. split. { vm_compute. right. right. left. reflexivity. } repeat split.
Qed.
Print Assumptions C46_refuted.

(* ---- C47 ---- *)
Theorem C47_refuted : exists d e m from a d' x y, reach d /\ legal d e (OIn m from) /\ foreign d e from /\ h_qr (m_header m) <> 0 /\ m_an m = [a] /\ rr_ttl a <> 0 /\
  registered d y /\ is_for y (rr_name a) QTYPE_ANY /\ (forall c, ~ cache_holds d c) /\ step d e (OIn m from) = Ok (d', x) /\ told (Q d') = told (Q d) /\ exists c, cache_holds d' c.
Proof.
  exists (story 1400 [((1, 0), OQuery (nm 97) QTYPE_ANY (Some 7%nat))]), (at_ (2, 0)), (telling [rr_a (nm 97) 1 100 [10; 0; 0; 5]]), peer. eexists. eexists. eexists. eexists.
  split; [apply story_reach|]. split; [apply legalb_ok; reflexivity|]. split; [split; [vm_compute; discriminate|intros l [K|K]; vm_compute in K; discriminate]|]. split; [discriminate|]. split; [reflexivity|]. split; [discriminate|].
  split; [exists 0%nat; split; [vm_compute; auto|vm_compute; reflexivity]|]. split; [split; vm_compute; reflexivity|]. split; [intros c K; vm_compute in K; exact K|].
  split; [vm_compute; reflexivity|]. split; [vm_compute; reflexivity|]. eexists. vm_compute. left. reflexivity.
Qed.
Print Assumptions C47_refuted.

(* What holds instead: a new record is told of to a query of its very type ... *)
Theorem C47_exact : forall d e o x d', reach d -> legal d e o -> step d e o = Ok (d', x) -> exists T, calls_made (mkevent d e o x d') T /\
  forall p, In p (news T) -> exists y, registered d y /\ fst p = q_cb y /\ is_for y (a_name (snd p)) (a_type (snd p)).
Proof. exact new_exact. Qed.
Print Assumptions C47_exact.
(* ... so a callback registered for ANY only never hears of a new address, host
   or text. *)
Theorem C47_deaf : forall d e o x d' k, reach d -> legal d e o -> step d e o = Ok (d', x) -> (forall y, registered d y -> q_cb y = k -> q_ty y = QTYPE_ANY) ->
  exists T, calls_made (mkevent d e o x d') T /\ forall v, In (k, v) (news T) -> a_type v = QTYPE_ANY.
Proof. exact any_deaf. Qed.
Print Assumptions C47_deaf.
(* Callback 8 for ANY, callback 7 for addresses *)
Definition eager : list (tv * op) := [((1, 0), OQuery (nm 97) QTYPE_ANY (Some 8%nat)); ((1, 0), OQuery (nm 97) QTYPE_A (Some 7%nat))].
Example C47_case : (exists y, registered (story 1400 eager) y /\ is_for y (nm 97) QTYPE_ANY /\ q_cb y = 8%nat) /\
  exists d' x, legal (story 1400 eager) (at_ (2, 0)) (OIn (telling [rr_a (nm 97) 1 100 [10; 0; 0; 5]; rr_txt (nm 97) 1 100 [1; 65]]) peer) /\
    step (story 1400 eager) (at_ (2, 0)) (OIn (telling [rr_a (nm 97) 1 100 [10; 0; 0; 5]; rr_txt (nm 97) 1 100 [1; 65]]) peer) = Ok (d', x) /\
    map (fun p => (fst p, a_type (snd p))) (told (Q d')) = [(7%nat, QTYPE_A)].
Proof.
  split.
  - eexists. split; [exists 0%nat; split; [vm_compute; auto|vm_compute; reflexivity]|]. split; [split; vm_compute; reflexivity|vm_compute; reflexivity].
  - eexists. eexists. split; [apply legalb_ok; reflexivity|]. split; [vm_compute; reflexivity|vm_compute; reflexivity].
Qed.

(* ---- C48 ---- *)
(* As long as nothing is cached for it: answers reset the count.  Questions for
   the name that probe for a record are not counted. *)
Theorem C48_thrice : forall d0 e0 n ty cb d1 x0 l d, reach d0 -> legal d0 e0 (OQuery n ty (Some cb)) -> (forall x, registered d0 x -> ~ is_for x n ty) ->
  step d0 e0 (OQuery n ty (Some cb)) = Ok (d1, x0) -> history d1 l d ->
  (forall ev, In ev l -> (forall cb, ev_call ev <> OQuery n ty (Some cb)) /\ not_probing (ev_before ev) n /\
     forall c, cache_holds (ev_before ev) c -> ~ (a_name (c_rr c) = n /\ (a_type (c_rr c) = ty \/ ty = QTYPE_ANY))) ->
  thrice (askings n ty l).
Proof. exact new_query_asked. Qed.
Print Assumptions C48_thrice.

Definition nosy : list (tv * op) := [((2, 0), OOut); ((2, 0), OOut); ((3, 0), OOut); ((4, 0), OOut); ((8, 0), OOut); ((9, 0), OOut); ((80, 0), OOut)].
Example C48_case : let d1 := story 1400 [((1, 0), OQuery (nm 97) QTYPE_A (Some 7%nat))] in
  step (mdnsd_new (1, 0) 1 1400) (at_ (1, 0)) (OQuery (nm 97) QTYPE_A (Some 7%nat)) = Ok (d1, RUnit) /\ history d1 (recorded d1 nosy) (fst (played d1 nosy)) /\
  (forall ev, In ev (recorded d1 nosy) -> (forall cb, ev_call ev <> OQuery (nm 97) QTYPE_A (Some cb)) /\ not_probing (ev_before ev) (nm 97) /\
     forall c, cache_holds (ev_before ev) c -> ~ (a_name (c_rr c) = nm 97 /\ (a_type (c_rr c) = QTYPE_A \/ QTYPE_A = QTYPE_ANY))) /\
  length (recorded d1 nosy) = 7%nat /\ askings (nm 97) QTYPE_A (recorded d1 nosy) = [2; 3; 8].
Proof.
  intros d1. split; [vm_compute; reflexivity|]. split; [apply recorded_history|]. split; [|split; vm_compute; reflexivity].
  intros ev I. assert (B : forallb (fun ev => match ev_call ev with OQuery _ _ _ => false | _ => true end && forallb (fun q => isnone (head (R (ev_before ev)) q)) [Probing; Now; Pause; Publish]
    && match concat (cache (Q (ev_before ev))) with [] => true | _ => false end) (recorded d1 nosy) = true) by (vm_compute; reflexivity).
  rewrite forallb_forall in B. specialize (B ev I). rewrite !andb_true_iff in B. destruct B as ((B1 & B2) & B3). split; [intros cb K; rewrite K in B1; discriminate|]. split.
  - intros r X _ _. exact (idle_by _ B2 r Probing).
  - intros c K. unfold cache_holds in K. destruct (concat (cache (Q (ev_before ev)))); [destruct K|discriminate].
Qed.
