(* Property theorems C123.  Vocabulary: SpecMqFound.v, SpecMquery.v.  Model: MqText.v,
   Mquery.v. *)
From Coq Require Import String Ascii.
From Verif Require Import Base Lemmas Wire Rec Qry Out In Api Reent Scenario Step SpecStep Mquery SpecMquery ScenarioMq MqText SpecMqFound FactsMqFound.

(* ---- C123 ---- *)
(* mquery prints a line for everything found, with the name and the address of who told,
   in order, and nothing else. *)
Theorem C123_listing : forall ntop terminate wait start s, session (ans ntop false) [] terminate wait start s ->
  output (l_prog s) = concat (map found_line (finds ntop (told (Q (l_daemon s))))).
Proof. exact session_listing. Qed.
Print Assumptions C123_listing.
(* What was found, and how often, can be read back, if no name has a line end.  Names
   may have spaces and parentheses. *)
Theorem C123_readable_partial : forall ntop terminate wait start s terminate' wait' start' s', plain_text ntop ->
  session (ans ntop false) [] terminate wait start s -> session (ans ntop false) [] terminate' wait' start' s' ->
  one_line (finds ntop (told (Q (l_daemon s)))) -> one_line (finds ntop (told (Q (l_daemon s')))) ->
  output (l_prog s) = output (l_prog s') -> finds ntop (told (Q (l_daemon s))) = finds ntop (told (Q (l_daemon s'))).
Proof. exact listing_read. Qed.
Print Assumptions C123_readable_partial.

(* ---- cases ---- *)
Definition ip_text (f : Z) (a : list Z) : list Z := lit "10.0.0.2".
Lemma ip_text_plain : plain_text ip_text.
Proof. intros f a. split; intros K; repeat (destruct K as [K|K]; [discriminate K|]); destruct K. Qed.
Definition listed (names : list (list Z)) : loop (list printed) :=
  ran (ans ip_text false) [] false 0 (1, 0) [((1, 0), []); ((2, 0), [told_by (flat_map (fun n => [MRr SAn DISCO_NAME QTYPE_PTR 1 120; MName n]) names)])].
Lemma listed_session : forall names, session (ans ip_text false) [] false 0 1 (listed names).
Proof. intros names. exact (ran_session _ (ans ip_text false) [] false 0 1 _ eq_refl). Qed.
Definition two : list (list Z) := [lit "x."; lit "y (1)."].
Example C123_case : session (ans ip_text false) [] false 0 1 (listed two) /\ plain_text ip_text /\ one_line (finds ip_text (told (Q (l_daemon (listed two))))) /\
  output (l_prog (listed two)) = lit "+ x. (10.0.0.2)" ++ [10] ++ lit "+ y (1). (10.0.0.2)" ++ [10].
Proof.
  split; [apply listed_session|]. split; [exact ip_text_plain|]. split; [|vm_compute; reflexivity].
  assert (E : finds ip_text (told (Q (l_daemon (listed two)))) = [(lit "x.", lit "10.0.0.2"); (lit "y (1).", lit "10.0.0.2")]) by (vm_compute; reflexivity).
  rewrite E. intros x [<-|[<-|[]]] K; repeat (destruct K as [K|K]; [discriminate K|]); destruct K.
Qed.

(* ---- what does not hold ---- *)
(* A name with a line end is printed as it is: one pointer makes the lines of two, the
   first with an address of its sender's choice. *)
Definition forged : list (list Z) := [lit "x. (10.0.0.2)" ++ [10] ++ lit "+ y (1)."].
Theorem C123_refuted : exists s s', session (ans ip_text false) [] false 0 1 s /\ session (ans ip_text false) [] false 0 1 s' /\
  output (l_prog s) = output (l_prog s') /\ length (finds ip_text (told (Q (l_daemon s)))) = 1%nat /\ length (finds ip_text (told (Q (l_daemon s')))) = 2%nat.
Proof. exists (listed forged), (listed two). split; [apply listed_session|]. split; [apply listed_session|]. split; [vm_compute; reflexivity|]. split; vm_compute; reflexivity. Qed.
Print Assumptions C123_refuted.
