(* Property theorem C68 again: which calls mdnsd_step makes.  Vocabulary: SpecDaemon.v,
   SpecStep.v, SpecStepExact.v.  Model: Step.v. *)
From Verif Require Import Base Hash Wire Rec Qry Out In Api SpecDaemon Scenario Step SpecStep SpecStepExact FactsStepExact PropLife PropStep.

(* mdnsd_in for each datagram that can be parsed, in order, until the socket has no
   more, gives an empty one or fails; then, unless it failed, mdnsd_out until it has
   nothing or a packet cannot be sent, and the packets are what it gave; then, unless
   something failed, mdnsd_sleep if the caller asked for the time.  The result is 1 if
   receiving failed, 2 if sending did, and otherwise 0.  Missing: datagrams that claim to
   be longer than they are (C56_refuted). *)
Theorem C68_exact_partial : forall d e inp out wt li lo d' ps t rc, reach d -> 0 <= fst (e_now e) -> reading li -> writing lo -> (forall e b from, In (e, Datagram b from) li -> b = [] \/ self_contained b) ->
  mdnsd_step d e inp out wt li lo = Ok (d', ps, t, rc) ->
  exists d1 d2 h1 h2 h3, history d h1 d1 /\ calls h1 = (if inp then taken li else []) /\
    history d1 h2 d2 /\ calls h2 = map (fun x => (fst x, OOut)) (firstn (length h2) lo) /\ packets h2 = ps /\
    (if inp && broken li then rc = 1 /\ h2 = [] else if out then sends lo h2 ps rc else rc = 0 /\ h2 = []) /\
    history d2 h3 d' /\ calls h3 = (if (rc =? 0) && wt then [(e, OSleep)] else []) ++ [(e, OEndStep)] /\ asleep h3 = t.
Proof. exact step_exact. Qed.
Print Assumptions C68_exact_partial.

(* Two datagrams, one of which cannot be parsed, then an empty one and one that is left;
   one packet, which can be sent or not; a socket that fails *)
Definition mixed : list (env * received) := [(at_ (9, 0), Datagram [1; 2; 3; 4; 5; 6; 7; 8; 9; 10; 11; 12] peer); (at_ (9, 0), Datagram quest_packet peer); (at_ (9, 0), Datagram [] peer); (at_ (9, 0), Datagram quest_packet stranger)].
Definition ruined : list (env * received) := [(at_ (9, 0), Datagram quest_packet peer); (at_ (9, 0), Failure)].
Definition refused : list (env * bool) := [(at_ (10, 0), false)].
Example C68_case_exact : reading mixed /\ (forall e b from, In (e, Datagram b from) mixed -> b = [] \/ self_contained b) /\ length (taken mixed) = 1%nat /\
  broken mixed = false /\ broken ruined = true /\
  (forall lo rc, In (lo, rc) [(sending, 0); (refused, 2)] -> match mdnsd_step text_known (at_ (10, 0)) true true true mixed lo with Ok (_, ps, t, r) => length ps = 1%nat /\ r = rc /\ (t = None <-> rc = 2) | _ => False end) /\
  match mdnsd_step text_known (at_ (10, 0)) true true true ruined sending with Ok (_, ps, t, r) => ps = [] /\ r = 1 /\ t = None | _ => False end.
Proof.
  split.
  { assert (B : forallb (fun x => match snd x with Datagram b _ => forallb (fun z => (0 <=? z) && (z <? 256)) b | Failure => true end) mixed = true) by (vm_compute; reflexivity).
    intros e x I. rewrite forallb_forall in B. specialize (B _ I). cbn [snd] in B. split; [repeat (destruct I as [I|I]; [injection I as <- <-; vm_compute; discriminate|]); destruct I|].
    destruct x as [b from|]; [|exact Logic.I]. rewrite forallb_forall in B. unfold bytes. apply Forall_forall. intros z Iz. specialize (B z Iz). unfold is_byte. lia. }
  split. { intros e b from [I|[I|[I|[I|[]]]]]; injection I as <- <- <-; try (left; reflexivity); right; (split; [vm_compute; split; [reflexivity|discriminate]|]); vm_compute; discriminate. }
  split; [vm_compute; reflexivity|]. split; [reflexivity|]. split; [reflexivity|]. split; [|vm_compute; repeat split].
  intros lo rc [I|[I|[]]]; injection I as <- <-; vm_compute; (split; [reflexivity|split; [reflexivity|split; discriminate || reflexivity]]).
Qed.
