(* Property theorem C115 again: what a turn of the loop of mquery does.  Vocabulary:
   SpecStep.v, SpecStepExact.v, SpecMqExact.v.  Model: Mquery.v. *)
From Verif Require Import Base Hash Wire Rec Qry Out In Api Reent Scenario Step SpecStep SpecStepExact Mquery SpecMquery ScenarioMq SpecMqExact FactsMqExact.

(* mdnsd_sleep, whose time select is given, with -T at most a second; mdnsd_in for each
   datagram that can be parsed, in order, until the socket has no more, gives an empty
   one or fails; then, unless it failed, mdnsd_out until it has nothing or a packet
   cannot be sent, and the packets are what it gave.  mquery fails if receiving or sending
   did, and ends if neither did and a limit set by -T or -w is reached.  Missing: datagrams
   that claim to be longer than they are (C56_refuted). *)
Theorem C115_turn_partial : forall A (beh : behaviour A) terminate wait start s e ready li lo t s' sl ps v, (forall e b from, In (e, Datagram b from) li -> b = [] \/ self_contained b) ->
  Mquery.turn beh terminate wait start s e ready li lo t = Ok (s', sl, ps, v) ->
  exists d0 t0 d1 a1, mdnsd_sleep (l_daemon s) e = Ok (d0, t0) /\ sl = (if terminate && (1 <=? fst t0) then (1, 0) else t0) /\
    fed beh d0 (l_prog s) (if ready then taken li else []) d1 a1 /\ l_last s' = (if ready then latest (l_last s) li else l_last s) /\
    if ready && SpecStepExact.broken li then v = Fails /\ ps = [] /\ l_daemon s' = d1 /\ l_prog s' = a1
    else exists sent, drained beh d1 a1 lo (l_daemon s') (l_prog s') ps sent /\ (v = Fails <-> sent = false) /\ (v = Done <-> sent = true /\ limit terminate wait start (l_last s') t).
Proof. exact turn_exact. Qed.
Print Assumptions C115_turn_partial.

(* Two datagrams, one of which cannot be parsed, then an empty one and one that is left;
   packets that can be sent or not; a socket that fails; two seconds later *)
Definition http_ptr : list Z := told_by [MRr SAn DISCO_NAME QTYPE_PTR 1 120; MName (nm 98)].
Definition mixed : list (env * received) := [(at_ (2, 0), Datagram http_ptr peer); (at_ (3, 0), Datagram [1; 2; 3; 4; 5; 6; 7; 8; 9; 10; 11; 12] peer); (at_ (3, 0), Datagram [] peer); (at_ (4, 0), Datagram http_ptr peer)].
Definition ruined : list (env * received) := [(at_ (2, 0), Datagram http_ptr peer); (at_ (3, 0), Failure)].
Definition no_text (f : Z) (a : list Z) : list Z := [].
Definition played (li : list (env * received)) (lo : list (env * bool)) (t : Z) : option (tv * nat * verdict * Z * nat) :=
  match Mquery.turn (ans no_text false) true 0 1 (started [] (1, 0)) (at_ (2, 0)) true li lo t with
  | Ok (s, sl, ps, v) => Some (sl, length ps, v, l_last s, length (l_prog s))
  | _ => None
  end.
Example C115_case_turn : session (ans no_text false) [] true 0 1 (started [] (1, 0)) /\ (forall e b from, In (e, Datagram b from) mixed -> b = [] \/ self_contained b) /\ length (taken mixed) = 1%nat /\ latest 0 mixed = 3 /\
  played mixed (outgoing (3, 0)) 4 = Some ((0, 0), 1%nat, Again, 3, 1%nat) /\
  played mixed (outgoing (3, 0)) 5 = Some ((0, 0), 1%nat, Done, 3, 1%nat) /\
  played mixed [(at_ (3, 0), false)] 5 = Some ((0, 0), 1%nat, Fails, 3, 1%nat) /\
  played ruined (outgoing (3, 0)) 5 = Some ((0, 0), 0%nat, Fails, 2, 1%nat).
Proof.
  split; [exact (ran_session _ (ans no_text false) [] true 0 1 [] eq_refl)|].
  split. { intros e b from [I|[I|[I|[I|[]]]]]; injection I as <- <- <-; try (left; reflexivity); right; (split; [vm_compute; split; [reflexivity|discriminate]|]); vm_compute; discriminate. }
  vm_compute. repeat split.
Qed.
