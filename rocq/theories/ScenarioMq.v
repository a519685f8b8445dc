(* Sessions for the examples of mquery. *)
From Verif Require Import Base Lemmas Wire Rec Qry Out In Api Reent SpecDaemon Step SpecStep QryInv QryReg DaemonInv Scenario Mquery SpecMquery.

(* A datagram with these answers *)
Definition told_by (l : list mcall) : list Z := snd (packet_of (mkomsg (mcast AF_INET) 0 true l)).
Definition bytesb (l : list Z) : bool := forallb (fun b => (0 <=? b) && (b <? 256)) l.
Lemma bytesb_ok : forall l, bytesb l = true -> bytes l.
Proof. intros l K. unfold bytesb in K. rewrite forallb_forall in K. apply Forall_forall. intros b I. apply K in I. unfold is_byte. lia. Qed.

(* A turn at one time: these datagrams are received, everything is sent *)
Definition incoming (t : tv) (l : list (list Z)) : list (env * received) := map (fun b => (at_ t, Datagram b peer)) l.
Definition outgoing (t : tv) : list (env * bool) := [(at_ t, true); (at_ t, true); (at_ t, true)].
Definition at_once {A} (beh : behaviour A) (terminate : bool) (wait start : Z) (s : loop A) (t : tv) (l : list (list Z)) :=
  turn beh terminate wait start s (at_ t) (match l with [] => false | _ => true end) (incoming t l) (outgoing t) (fst t).
Fixpoint turns {A} (beh : behaviour A) (terminate : bool) (wait start : Z) (s : loop A) (l : list (tv * list (list Z))) : loop A :=
  match l with
  | [] => s
  | (t, b) :: l =>
      if (0 <=? fst t) && forallb bytesb b then
        match at_once beh terminate wait start s t b with Ok (s, _, _, Again) => turns beh terminate wait start s l | _ => s end
      else s
  end.
Lemma turns_session : forall A (beh : behaviour A) a0 terminate wait start l s, session beh a0 terminate wait start s -> session beh a0 terminate wait start (turns beh terminate wait start s l).
Proof.
  intros A beh a0 terminate wait start l. induction l as [|[t b] l IH]; intros s K; cbn [turns]; [exact K|]. destruct ((0 <=? fst t) && forallb bytesb b) eqn:C; [|exact K]. apply andb_true_iff in C as [C1 C2].
  destruct (at_once beh terminate wait start s t b) as [[[[s' sl] ps] [| |]]| | |] eqn:E; try exact K. apply IH. eapply session_turn; [exact K| | | |exact E].
  - cbn [at_ e_now]. lia.
  - intros e x I. apply in_map_iff in I as (y & Ey & I). injection Ey as <- <-. split; [cbn [at_ e_now]; lia|]. apply bytesb_ok. rewrite forallb_forall in C2. apply C2. exact I.
  - intros e x I. assert (e = at_ t) by (destruct I as [I|[I|[I|[]]]]; congruence). subst e. cbn [at_ e_now]. lia.
Qed.

Definition started {A} (a0 : A) (t : tv) : loop A := match begin t AF_INET DISCO_NAME QTYPE_PTR a0 (fun _ => 0) with Ok s => s | _ => mkloop (mdnsd_new t 1 1000) a0 (fun _ => 0) 0 end.
Definition ran {A} (beh : behaviour A) (a0 : A) (terminate : bool) (wait : Z) (t : tv) (l : list (tv * list (list Z))) : loop A := turns beh terminate wait (fst t) (started a0 t) l.
Lemma ran_session : forall A (beh : behaviour A) a0 terminate wait s l, (0 <=? s) = true -> session beh a0 terminate wait s (ran beh a0 terminate wait (s, 0) l).
Proof.
  intros A beh a0 terminate wait s l K. apply turns_session. eapply (session_begin beh a0 terminate wait s (s, 0) AF_INET DISCO_NAME QTYPE_PTR (fun _ => 0)); [cbn [fst]; lia|reflexivity|intros i; split; lia|].
  assert (H : qinv (Q (mdnsd_new (s, 0) 1 1000))) by (destruct (DaemonInv.calm_new (s, 0) 1 1000 ltac:(cbn [fst]; lia)) as (H & _); exact H).
  destruct (mdnsd_query_spec (Q (mdnsd_new (s, 0) 1 1000)) s DISCO_NAME QTYPE_PTR (Some PLAIN) H) as (q & o & Eq & _).
  unfold started, begin. cbn [step bind]. match goal with |- context [mdnsd_query ?x ?y ?z ?w ?v] => replace (mdnsd_query x y z w v) with (Ok q) by (symmetry; exact Eq) end. reflexivity.
Qed.
