(* Answer callbacks that call the library: C75, C76.
   Vocabulary: SpecReent.v, SpecDaemon.v, SpecCache.v.  Model: Reent.v. *)
From Verif Require Import Base Hash Wire Rec Qry Out In Api Reent SpecDaemon SpecCache SpecReent Scenario ScenarioRe ReentAgree ReentRuns ReentAsk.

(* ---- C75 ---- *)
(* Without callbacks that call the library the model is that of the other
   properties ... *)
Theorem C75_agree_in : forall d e m from, reach d -> legal d e (OIn m from) ->
  in_re (fun k _ _ => Ok (S k, [], e_cb e k)) d (ncb (Q d)) e m from = ('(d', n) <- mdnsd_in d e m from;; Ok (d', ncb (Q d'), n)).
Proof. exact agree_in. Qed.
Print Assumptions C75_agree_in.
Theorem C75_agree_out : forall d e, reach d ->
  out_re (fun k _ _ => Ok (S k, [], e_cb e k)) d (ncb (Q d)) e = ('(d', m, n) <- mdnsd_out d e;; Ok (d', ncb (Q d'), m, n)).
Proof. exact agree_out. Qed.
Print Assumptions C75_agree_out.

(* ... with them every call succeeds ... *)
Theorem C75_partial : forall A (beh : behaviour A) I a0 d a e, orderly beh I -> I a0 -> runs beh I a0 d a -> 0 <= fst (e_now e) ->
  (forall o, legal d e o -> exists d' x, step d e o = Ok (d', x)) /\
  (forall m from, wf_message m -> exists d' a' n, in_re beh d a e m from = Ok (d', a', n)) /\
  (adding beh I \/ unexhausted d (fst (e_now e)) -> exists d' a' m n, out_re beh d a e = Ok (d', a', m, n)).
Proof. exact program_safe. Qed.
Print Assumptions C75_partial.

(* ... and the program is where its callbacks brought it, one call after the other. *)
Theorem C75_told : forall A (beh : behaviour A) I a0 d a, orderly beh I -> I a0 -> runs beh I a0 d a ->
  replayed beh a0 (told (Q d)) a /\ Forall (fun t => named (snd t)) (told (Q d)).
Proof. exact program_replayed. Qed.
Print Assumptions C75_told.

(* A callback that removes the query it is called for and returns -1 *)
Definition quits : behaviour unit := fun a _ x => Ok (a, [(a_name x, a_type x, None)], true).
Definition quits_at_end : behaviour unit := fun a _ x => if a_ttl x =? 0 then quits a 0%nat x else Ok (a, [], false).
Theorem C75_refuted : exists d e m from, runs quits (fun _ => True) tt d tt /\ 0 <= fst (e_now e) /\ wf_message m /\ in_re quits d tt e m from = UB NullDeref.
Proof.
  exists (fst (fst (tale quits tt [((1, 0), OQuery (nm 97) QTYPE_A (Some 7%nat))]))), (at_ (2, 0)), (telling [rr_a (nm 97) 1 100 [10; 0; 0; 5]]), peer.
  split; [|split; [vm_compute; discriminate|split; [|vm_compute; reflexivity]]].
  - pose proof (tale_runs _ quits (fun _ => True) tt [((1, 0), OQuery (nm 97) QTYPE_A (Some 7%nat))] (or_intror eq_refl)) as K. destruct (snd (fst (tale quits _ _))). exact K.
  - repeat constructor; try discriminate. exists [10; 0; 0; 5]. reflexivity.
Qed.
Print Assumptions C75_refuted.
Theorem C75_refuted_expiry : exists d e m from, runs quits_at_end (fun _ => True) tt d tt /\ 0 <= fst (e_now e) /\ wf_message m /\ in_re quits_at_end d tt e m from = UB UseAfterFree.
Proof.
  set (l := [((1, 0), OQuery (nm 97) QTYPE_A (Some 7%nat)); ((2, 0), OIn (telling [rr_a (nm 97) 1 100 [10; 0; 0; 5]]) peer)]).
  exists (fst (fst (tale quits_at_end tt l))), (at_ (3, 0)), (telling [rr_a (nm 97) 1 0 [10; 0; 0; 5]]), peer.
  split; [|split; [vm_compute; discriminate|split; [|vm_compute; reflexivity]]].
  - pose proof (tale_runs _ quits_at_end (fun _ => True) tt l (or_intror eq_refl)) as K. destruct (snd (fst (tale quits_at_end _ _))). exact K.
  - repeat constructor; try discriminate. exists [10; 0; 0; 5]. reflexivity.
Qed.
Print Assumptions C75_refuted_expiry.

(* A browser: callback 0 gets the instances of a service, asks for the address
   of each and remembers it (and unregisters if there is no name); callback 1 gets addresses, and when it has one it
   stops asking for further instances. *)
Definition browser : behaviour (list (list Z)) := fun a k x =>
  match k with
  | O => match a_rdname x with Some n => Ok (n :: a, [(n, QTYPE_A, Some 1%nat)], false) | None => Ok (a, [], true) end
  | _ => Ok (a_ip x :: a, [(nm 115, QTYPE_PTR, None)], false)
  end.
Definition browses (a : list (list Z)) : Prop := True.
Definition browsing : list (tv * op) :=
  [((1, 0), OQuery (nm 115) QTYPE_PTR (Some 0%nat)); ((2, 0), OIn (telling [rr_ptr (nm 115) 1 100 (nm 120); rr_ptr (nm 115) 1 100 (nm 121); rr_a (nm 120) 1 100 [10; 0; 0; 5]]) peer);
   ((3, 0), OIn (telling [rr_ptr (nm 115) 1 100 (nm 122); rr_a (nm 121) 1 100 [10; 0; 0; 6]]) peer)].
Example C75_case : let d := fst (fst (tale browser [] browsing)) in let a := snd (fst (tale browser [] browsing)) in
  runs browser browses [] d a /\ a = [[10; 0; 0; 6]; [10; 0; 0; 5]; nm 121; nm 120] /\ length (told (Q d)) = 4%nat /\
  map (fun q => option_map q_nm (qh (Q d) q)) (qlist (Q d)) = [Some (nm 121); Some (nm 120)].
Proof.
  split; [|split; [vm_compute; reflexivity|split; vm_compute; reflexivity]].
  exact (tale_runs _ browser browses [] browsing (or_intror eq_refl)).
Qed.
Example C75_case_orderly : orderly browser browses.
Proof.
  intros a k x _ _. destruct k as [|k]; cbn [browser]; [destruct (a_rdname x) as [n|]|].
  - exists (n :: a), [(n, QTYPE_A, Some 1%nat)], false. repeat split. discriminate.
  - exists a, [], true. repeat split. constructor.
  - exists (a_ip x :: a), [(nm 115, QTYPE_PTR, None)], false. repeat split. discriminate.
Qed.

(* ---- C76 ---- *)
(* A query that was not registered at one point and is at another, whoever
   registered it, was asked when mdnsd_out next has nothing else to send. *)
Theorem C76_asked : forall A (beh : behaviour A) I a0 n ty d a ms d1 a1 e d2 a2 m k, orderly beh I -> I a0 -> runs beh I a0 d a -> 0 < fst (now d) ->
  (forall x, registered d x -> ~ is_for x n ty) -> goes_on beh I d a ms d1 a1 -> (exists x, registered d1 x /\ is_for x n ty) -> nothing_waits d1 ->
  fst (now d1) <= fst (e_now e) -> adding beh I \/ unexhausted d1 (fst (e_now e)) -> out_re beh d1 a1 e = Ok (d2, a2, m, k) ->
  exists m' c, In m' (ms ++ [m]) /\ says m' (IQuestion n ty c).
Proof. exact registered_asked. Qed.
Print Assumptions C76_asked.

(* A callback that asks for the name each pointer refers to, again when it goes *)
Definition follower : behaviour unit := fun a _ x => match a_rdname x with Some n => Ok (a, [((if a_ttl x =? 0 then nm 122 else n), QTYPE_A, Some 1%nat)], false) | None => Ok (a, [], false) end.
Lemma follower_adds : adding follower (fun _ => True).
Proof.
  intros a k x _ _. unfold follower. destruct (a_rdname x) as [n|]; [|exists a, []; repeat split; constructor].
  exists a. eexists. split; [reflexivity|]. split; [exact Logic.I|]. constructor; [|constructor]. unfold registering. eauto.
Qed.
Definition following : list (tv * op) :=
  [((1, 0), OQuery (nm 115) QTYPE_PTR (Some 0%nat)); ((1, 0), OOut); ((1, 0), OOut); ((1, 0), OIn (telling [rr_ptr (nm 115) 1 4 (nm 120)]) peer); ((2, 0), OOut); ((4, 0), OOut)].
(* The pointer expires while mdnsd_out handles the query that rests; the name
   asked for then is in the message after it. *)
Definition follows : daemon := fst (fst (tale follower tt following)).
Definition follows_on : daemon := fst (fst (acted follower follows tt [((20, 0), OOut)])).
Example C76_case : runs follower (fun _ => True) tt follows tt /\ (forall x, registered follows x -> ~ is_for x (nm 122) QTYPE_A) /\
  goes_on follower (fun _ => True) follows tt (snd (acted follower follows tt [((20, 0), OOut)])) follows_on tt /\ (exists x, registered follows_on x /\ is_for x (nm 122) QTYPE_A) /\
  nothing_waits follows_on /\ length (told (Q follows_on)) = 2%nat /\
  match out_re follower follows_on tt (at_ (20, 0)) with Ok (_, _, m, _) => items (o_calls m) | _ => [] end = [IQuestion (nm 122) QTYPE_A 1].
Proof.
  refine (conj _ (conj _ (conj _ (conj _ (conj (conj _ (conj _ _)) (conj _ _)))))).
  - pose proof (tale_runs _ follower (fun _ => True) tt following (or_introl follower_adds)) as K. destruct (snd (fst (tale follower tt following))). exact K.
  - intros x (q & I & K) [F _]. vm_compute in I. destruct I as [<-|[<-|[]]]; vm_compute in K; injection K as <-; discriminate F.
  - pose proof (acted_goes_on _ follower (fun _ => True) [((20, 0), OOut)] follows tt (or_introl follower_adds)) as K. destruct (snd (fst (acted follower follows tt [((20, 0), OOut)]))). exact K.
  - eexists. split; [exists 2%nat; split; [vm_compute; auto|vm_compute; reflexivity]|split; vm_compute; reflexivity].
  - vm_compute. reflexivity.
  - intros q r (l & K & I). assert (Hd : head (R follows_on) q = None) by (destruct q; vm_compute; reflexivity).
    unfold queue_is in K. rewrite Hd in K. inversion K. subst l. destruct I.
  - vm_compute. reflexivity.
  - vm_compute. reflexivity.
  - vm_compute. reflexivity.
Qed.
