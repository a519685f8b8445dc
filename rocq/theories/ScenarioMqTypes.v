(* The sessions of ScenarioMq.v begin with the query for the service types. *)
From Verif Require Import Base Lemmas Wire Rec Qry Out In Api Reent SpecDaemon Step SpecStep QryInv QryReg DaemonInv Scenario Mquery SpecMquery ScenarioMq SpecMqTypes.

Lemma turns_session_of : forall A (beh : behaviour A) a0 terminate wait start n ty l s, session_of beh a0 terminate wait start n ty s -> session_of beh a0 terminate wait start n ty (turns beh terminate wait start s l).
Proof.
  intros A beh a0 terminate wait start n ty l. induction l as [|[t b] l IH]; intros s K; cbn [turns]; [exact K|]. destruct ((0 <=? fst t) && forallb bytesb b) eqn:C; [|exact K]. apply andb_true_iff in C as [C1 C2].
  destruct (at_once beh terminate wait start s t b) as [[[[s' sl] ps] [| |]]| | |] eqn:E; try exact K. apply IH. eapply session_of_turn; [exact K| | | |exact E].
  - cbn [at_ e_now]. lia.
  - intros e x I. apply in_map_iff in I as (y & Ey & I). injection Ey as <- <-. split; [cbn [at_ e_now]; lia|]. apply bytesb_ok. rewrite forallb_forall in C2. apply C2. exact I.
  - intros e x I. assert (e = at_ t) by (destruct I as [I|[I|[I|[]]]]; congruence). subst e. cbn [at_ e_now]. lia.
Qed.
Lemma ran_session_of : forall A (beh : behaviour A) a0 terminate wait s l, (0 <=? s) = true -> session_of beh a0 terminate wait s DISCO_NAME QTYPE_PTR (ran beh a0 terminate wait (s, 0) l).
Proof.
  intros A beh a0 terminate wait s l K. apply turns_session_of. eapply (session_of_begin beh a0 terminate wait s DISCO_NAME QTYPE_PTR (s, 0) AF_INET (fun _ => 0)); [cbn [fst]; lia|reflexivity|intros i; split; lia|].
  assert (H : qinv (Q (mdnsd_new (s, 0) 1 1000))) by (destruct (DaemonInv.calm_new (s, 0) 1 1000 ltac:(cbn [fst]; lia)) as (H & _); exact H).
  destruct (mdnsd_query_spec (Q (mdnsd_new (s, 0) 1 1000)) s DISCO_NAME QTYPE_PTR (Some PLAIN) H) as (q & o & Eq & _).
  unfold started, begin. cbn [step bind]. match goal with |- context [mdnsd_query ?x ?y ?z ?w ?v] => replace (mdnsd_query x y z w v) with (Ok q) by (symmetry; exact Eq) end. reflexivity.
Qed.
