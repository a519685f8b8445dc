(* C105 to C107: what makes the daemon send. *)
From Verif Require Import Base Hash Wire Rec Qry Out In Api SpecDaemon SpecLife SpecAnswer SpecStorm Lemmas FactsStorm Scenario PropLife.

(* ---- C105: a response is not answered ---- *)
(* It leads to no unicast reply, to no query, and to no message with a record,
   except a goodbye (TTL 0) for a record whose conflict callback was called. *)
Theorem C105_silent : forall d e m from d' x, reach d -> legal d e (OIn m from) -> h_qr (m_header m) <> 0 -> step d e (OIn m from) = Ok (d', x) ->
  disco d' = disco d /\ (forall u, In u (uans (R d')) -> In u (uans (R d))) /\
  (forall y, registered d' y -> registered d y) /\ checkq (Q d') = checkq (Q d) /\
  (forall k r, waits d' k r -> waits d k r \/ exists X Y, record d r X /\ unique X <> 0 /\ conflict_told d X d' /\ record d' r Y /\ a_ttl (rr Y) = 0) /\
  (conflicts (R d') = conflicts (R d) -> R d' = R d).
Proof. exact response_silent. Qed.
Print Assumptions C105_silent.

(* A query is registered, a unique address verified and announced.  An answer to
   the query changes no record; the very address makes the daemon say goodbye. *)
Definition inhabited : list (tv * op) :=
  [((1, 0), OUnique (nm 97) QTYPE_A 120 (Some 4%nat)); ((1, 0), OSetIp 0 [10; 0; 0; 9]); ((1, 0), OQuery (nm 98) QTYPE_TXT (Some 5%nat))] ++
  map (fun t => ((t, 0), OOut)) [2; 3; 4; 5; 6; 8; 10; 12; 14].
Definition news : op := OIn (telling [rr_txt (nm 98) 1 60 [1; 65]]) peer.
Definition rival : op := OIn (telling [rr_a (nm 97) 1 60 [10; 0; 0; 9]]) peer.
Example C105_case : (forall r, idle (story 1400 inhabited) r) /\ legal (story 1400 inhabited) (at_ (20, 0)) news /\ legal (story 1400 inhabited) (at_ (20, 0)) rival /\
  match step (story 1400 inhabited) (at_ (20, 0)) news, step (story 1400 inhabited) (at_ (20, 0)) rival with
  | Ok (d1, _), Ok (d2, _) => conflicts (R d1) = [] /\ length (told (Q d1)) = 1%nat /\ conflicts (R d2) = [(4%nat, nm 97, QTYPE_A)] /\ head (R d2) Now = Some 0%nat /\ option_map (fun X => a_ttl (rr X)) (hp (R d2) 0%nat) = Some 0
  | _, _ => False
  end.
Proof.
  split; [apply idle_by; vm_compute; reflexivity|]. split; [apply legalb_ok; vm_compute; reflexivity|]. split; [apply legalb_ok; vm_compute; reflexivity|]. vm_compute. repeat split.
Qed.

(* ---- C106: nothing is multicast without a cause, and a cause is spent ---- *)
(* A record that waits on no queue is not sent, and goes on waiting on none. *)
Theorem C106_silent : forall d l d' r X, reach d -> record d r X -> idle d r -> history d l d' -> (forall ev, In ev l -> ~ calls_for ev r /\ singular (ev_before ev) r) ->
  times (multicasts r) 0 l /\ idle d' r.
Proof. exact storm_none. Qed.
Print Assumptions C106_silent.

(* A record that waits as a reply is sent once at most. *)
Theorem C106_once : forall d l d' r X k, reach d -> record d r X -> waits d k r -> k = Now \/ k = Pause -> history d l d' -> (forall ev, In ev l -> ~ calls_for ev r /\ singular (ev_before ev) r) ->
  exists n, times (multicasts r) n l /\ (n <= 1)%nat.
Proof. exact storm_once. Qed.
Print Assumptions C106_once.

(* Any record is sent four times at most before the next cause. *)
Theorem C106_four : forall d l d' r X, reach d -> record d r X -> history d l d' -> (forall ev, In ev l -> ~ calls_for ev r /\ singular (ev_before ev) r) ->
  exists n, times (multicasts r) n l /\ (n <= 4)%nat.
Proof. exact storm_four. Qed.
Print Assumptions C106_four.

(* A text is announced while another record is made, a query registered, a
   question for something else and an answer heard, and mdnsd_sleep called. *)
Definition text_up : list (tv * op) := [((1, 0), OShared (nm 98) QTYPE_TXT 60); ((1, 0), OSetRaw 0 [1; 97])].
Definition bustle : list (tv * op) :=
  [((2, 0), OOut); ((3, 0), OShared (nm 99) QTYPE_TXT 60); ((3, 0), OSetRaw 1 [1; 98]); ((4, 0), OOut); ((5, 0), OQuery (nm 100) QTYPE_A (Some 5%nat));
   ((6, 0), OOut); ((7, 0), OIn (asking 5 [mkquestion (nm 99) QTYPE_TXT 1] []) peer); ((8, 0), OOut); ((9, 0), OIn (telling [rr_txt (nm 98) 1 60 [1; 97]]) peer);
   ((10, 0), OOut); ((11, 0), OSleep); ((12, 0), OOut); ((14, 0), OOut)].
Definition quiet_for (name : list Z) (ev : event) : bool :=
  match hp (R (ev_before ev)) 0%nat with
  | None => true
  | Some X => bytes_eqb (a_name (rr X)) name && (unique X =? 0) &&
    match ev_call ev with
    | OOut | OShared _ _ _ | OQuery _ _ _ => true
    | OSetRaw x _ => negb (Nat.eqb x 0)
    | OIn m _ => forallb (fun q => negb (bytes_eqb (q_name q) name)) (m_qd m)
    | OSleep => fst (e_now (ev_env ev)) + 2 <? fst (last_sent X) + a_ttl (rr X)
    | _ => false
    end
  end.
Lemma quiet_by : forall name ev, quiet_for name ev = true -> ~ calls_for ev 0.
Proof.
  intros name ev Q (X & EX & C). unfold quiet_for in Q. unfold record in EX. rewrite EX in Q. apply andb_prop in Q as [Q Q3]. apply andb_prop in Q as [Q1 Q2]. apply bytes_eqb_eq in Q1.
  destruct (ev_call ev); try discriminate Q3; try contradiction.
  - subst. discriminate Q3.
  - destruct C as [(_ & q & I & W)|(_ & U & _)]; [|lia]. rewrite forallb_forall in Q3. specialize (Q3 q I). destruct W as (_ & _ & W & _). rewrite <- W, Q1, bytes_eqb_refl in Q3. discriminate.
  - destruct C as [_ C]. apply Z.ltb_lt in Q3. lia.
Qed.
Lemma causeless_by : forall l d name, reach d -> forallb (fun ev => quiet_for name ev && singularb (ev_before ev) 0) (recorded d l) = true ->
  forall ev, In ev (recorded d l) -> ~ calls_for ev 0 /\ singular (ev_before ev) 0.
Proof.
  intros l d name K B ev I. rewrite forallb_forall in B. pose proof (B ev I) as Q. apply andb_prop in Q as [Q1 _]. split; [eapply quiet_by; exact Q1|]. revert ev I Q1.
  assert (B2 : forallb (fun ev => singularb (ev_before ev) 0) (recorded d l) = true) by (apply forallb_forall; intros ev I; specialize (B ev I); apply andb_prop in B; apply B).
  intros ev I _. exact (singulars_by l d 0%nat K B2 ev I).
Qed.
Definition shows_text (x : out) : bool := match x with RMsg m _ => existsb (fun i => match i with IRecord SAn n _ _ _ _ => bytes_eqb n (nm 98) | _ => false end) (items (o_calls m)) | _ => false end.
Definition calm_text : daemon := fst (played (story 1400 text_up) bustle).
Definition knocked : daemon := fst (played calm_text [((20, 0), OIn (asking 5 [mkquestion (nm 98) QTYPE_TXT 1] []) peer)]).
Definition later_on : list (tv * op) := [((21, 0), OOut); ((22, 0), OOut); ((23, 0), OIn (telling [rr_txt (nm 98) 1 60 [1; 97]]) peer); ((24, 0), OOut); ((25, 0), OSleep)].
Example C106_case :
  (exists X, record (story 1400 text_up) 0 X) /\ history (story 1400 text_up) (recorded (story 1400 text_up) bustle) calm_text /\
  (forall ev, In ev (recorded (story 1400 text_up) bustle) -> ~ calls_for ev 0 /\ singular (ev_before ev) 0) /\ length (filter (fun ev => shows_text (ev_result ev)) (recorded (story 1400 text_up) bustle)) = 4%nat /\
  (forall r, idle calm_text r) /\ (exists X, record calm_text 0 X) /\
  (forall ev, In ev (recorded calm_text later_on) -> ~ calls_for ev 0 /\ singular (ev_before ev) 0) /\ length (filter (fun ev => shows_text (ev_result ev)) (recorded calm_text later_on)) = 0%nat /\
  waits knocked Pause 0 /\ (exists X, record knocked 0 X) /\
  (forall ev, In ev (recorded knocked later_on) -> ~ calls_for ev 0 /\ singular (ev_before ev) 0) /\ length (filter (fun ev => shows_text (ev_result ev)) (recorded knocked later_on)) = 1%nat.
Proof.
  assert (K0 : reach (story 1400 text_up)) by apply story_reach. assert (K1 : reach calm_text) by (apply played_reach; exact K0). assert (K2 : reach knocked) by (apply played_reach; exact K1).
  split; [eexists; vm_compute; reflexivity|]. split; [apply recorded_history|]. split; [apply (causeless_by _ _ (nm 98)); [exact K0|vm_compute; reflexivity]|]. split; [vm_compute; reflexivity|].
  split; [apply idle_by; vm_compute; reflexivity|]. split; [eexists; vm_compute; reflexivity|]. split; [apply (causeless_by _ _ (nm 98)); [exact K1|vm_compute; reflexivity]|]. split; [vm_compute; reflexivity|].
  split; [apply (waits_by [0%nat]); [vm_compute; reflexivity|left; reflexivity]|]. split; [eexists; vm_compute; reflexivity|]. split; [apply (causeless_by _ _ (nm 98)); [exact K2|vm_compute; reflexivity]|]. vm_compute. reflexivity.
Qed.

(* ---- C107: a host gets at most one unicast reply per question it asked ---- *)
Theorem C107_few : forall t0 cls frm l d a, 0 <= fst t0 -> history (mdnsd_new t0 cls frm) l d -> port a <> 5353 -> exists n, times (sends_to a) n l /\ (n <= questions_from a l)%nat.
Proof. exact few_replies. Qed.
Print Assumptions C107_few.

(* Three questions, one of which has no answer, and another host *)
Definition asked_thrice : list (tv * op) :=
  text_up ++ bustle ++ [((20, 0), OIn (asking 5 [mkquestion (nm 98) QTYPE_TXT 1; mkquestion (nm 99) QTYPE_ANY 1; mkquestion (nm 120) QTYPE_A 1] []) stranger);
                        ((20, 0), OIn (asking 6 [mkquestion (nm 98) QTYPE_TXT 1] []) peer)] ++ map (fun t => ((t, 0), OOut)) [21; 22; 23; 24].
Example C107_case : history (mdnsd_new (1, 0) 1 1400) (annals 1400 asked_thrice) (story 1400 asked_thrice) /\ port stranger <> 5353 /\ questions_from stranger (annals 1400 asked_thrice) = 3%nat /\
  length (filter (fun ev => match ev_result ev with RMsg m _ => if addr_dec (o_to m) stranger then true else false | _ => false end) (annals 1400 asked_thrice)) = 2%nat.
Proof. split; [apply annals_history|]. split; [discriminate|]. split; vm_compute; reflexivity. Qed.
