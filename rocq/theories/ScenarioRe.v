(* Histories for the examples of programs whose callbacks call the library. *)
From Verif Require Import Base Lemmas Hash Wire Rec Qry Out In Api Reent SpecDaemon SpecReent Scenario.

Definition is_in (o : op) : bool := match o with OIn _ _ => true | _ => false end.
Definition is_out (o : op) : bool := match o with OOut => true | _ => false end.

(* The calls are made as long as each is legal and succeeds *)
Fixpoint acted {A} (beh : behaviour A) (d : daemon) (a : A) (l : list (tv * op)) : daemon * A * list omsg :=
  match l with
  | [] => (d, a, [])
  | (t, o) :: l =>
      if legalb d t o && (fst (now d) <=? fst t) then
        match o with
        | OIn m from => match in_re beh d a (at_ t) m from with Ok (d, a, _) => acted beh d a l | _ => (d, a, []) end
        | OOut => match out_re beh d a (at_ t) with Ok (d, a, m, _) => let '(d, a, ms) := acted beh d a l in (d, a, m :: ms) | _ => (d, a, []) end
        | _ => match step d (at_ t) o with Ok (d, _) => acted beh d a l | _ => (d, a, []) end
        end
      else (d, a, [])
  end.

Lemma goes_on_more : forall A (beh : behaviour A) I d a ms d1 a1 ms' d2 a2, goes_on beh I d a ms d1 a1 -> goes_on beh I d1 a1 ms' d2 a2 -> goes_on beh I d a (ms ++ ms') d2 a2.
Proof.
  intros A beh I d a ms d1 a1 ms' d2 a2 G K. induction K.
  - rewrite app_nil_r. exact G.
  - eapply on_call; eauto.
  - eapply on_in; eauto.
  - rewrite app_assoc. eapply on_out; eauto.
Qed.

Lemma acted_goes_on : forall A (beh : behaviour A) I l d a, adding beh I \/ forallb (fun x => negb (is_out (snd x))) l = true ->
  goes_on beh I d a (snd (acted beh d a l)) (fst (fst (acted beh d a l))) (snd (fst (acted beh d a l))).
Proof.
  intros A beh I. induction l as [|[t o] l IH]; intros d a M; cbn [acted]; [apply on_start|]. destruct (legalb d t o && (fst (now d) <=? fst t)) eqn:L; [|apply on_start].
  apply andb_true_iff in L as [L Lt]. apply legalb_ok in L. assert (T : fst (now d) <= fst (e_now (at_ t))) by (cbn [at_ e_now]; lia).
  assert (M' : adding beh I \/ forallb (fun x => negb (is_out (snd x))) l = true).
  { destruct M as [M|M]; [auto|right]. cbn [forallb] in M. apply andb_true_iff in M as [_ M]. exact M. }
  assert (G1 : forall ms d1 a1, goes_on beh I d a ms d1 a1 -> goes_on beh I d a (ms ++ snd (acted beh d1 a1 l)) (fst (fst (acted beh d1 a1 l))) (snd (fst (acted beh d1 a1 l)))).
  { intros ms d1 a1 G. eapply goes_on_more; [exact G|]. apply IH. exact M'. }
  assert (G0 : goes_on beh I d a [] d a) by apply on_start.
  assert (C : (forall m from, o <> OIn m from) -> o <> OOut -> forall d1 x, step d (at_ t) o = Ok (d1, x) ->
    goes_on beh I d a (snd (acted beh d1 a l)) (fst (fst (acted beh d1 a l))) (snd (fst (acted beh d1 a l)))).
  { intros N1 N2 d1 x E. apply (G1 []). eapply on_call; eauto. }
  destruct o; try (destruct (step d (at_ t) _) as [[d1 x]| | |] eqn:E; try apply on_start; eapply C; [discriminate|discriminate|reflexivity]).
  - destruct (in_re beh d a (at_ t) _ _) as [[[d1 a1] n]| | |] eqn:E; try apply on_start. apply (G1 []). eapply on_in; [exact G0|exact T|exact (proj2 L)|exact E].
  - destruct (out_re beh d a (at_ t)) as [[[[d1 a1] m] n]| | |] eqn:E; try apply on_start.
    assert (K : goes_on beh I d a [m] d1 a1) by (apply (on_out beh I d a [] d a (at_ t) d1 a1 m n G0 T); [destruct M as [M|M]; [auto|discriminate M]|exact E]).
    specialize (G1 [m] d1 a1 K). destruct (acted beh d1 a1 l) as [[d2 a2] ms]. exact G1.
Qed.


(* mdnsd_new, then the calls *)
Definition tale {A} (beh : behaviour A) (a : A) (l : list (tv * op)) : daemon * A * list omsg := acted beh (mdnsd_new (1, 0) 1 1400) a l.
Lemma acted_runs : forall A (beh : behaviour A) I a0 l d a, adding beh I \/ forallb (fun x => negb (is_out (snd x))) l = true -> runs beh I a0 d a ->
  runs beh I a0 (fst (fst (acted beh d a l))) (snd (fst (acted beh d a l))).
Proof.
  intros A beh I a0. induction l as [|[t o] l IH]; intros d a M R0; cbn [acted]; [exact R0|]. destruct (legalb d t o && (fst (now d) <=? fst t)) eqn:L; [|exact R0].
  apply andb_true_iff in L as [L Lt]. assert (L0 := L). apply legalb_ok in L.
  assert (M' : adding beh I \/ forallb (fun x => negb (is_out (snd x))) l = true).
  { destruct M as [M|M]; [auto|right]. cbn [forallb] in M. apply andb_true_iff in M as [_ M]. exact M. }
  destruct o; try (destruct (step d (at_ t) _) as [[d1 x]| | |] eqn:E; try exact R0; apply IH; [exact M'|]; eapply runs_call; [exact R0|exact L|discriminate|discriminate|exact E]).
  - destruct (in_re beh d a (at_ t) _ _) as [[[d1 a1] n]| | |] eqn:E; try exact R0. apply IH; [exact M'|]. eapply runs_in; [exact R0|exact (proj1 L)|exact (proj2 L)|exact E].
  - destruct (out_re beh d a (at_ t)) as [[[[d1 a1] m] n]| | |] eqn:E; try exact R0.
    assert (K : runs beh I a0 d1 a1) by (eapply runs_out; [exact R0|exact (proj1 L)|destruct M as [M|M]; [left; exact M|discriminate M]|exact E]).
    specialize (IH d1 a1 M' K). destruct (acted beh d1 a1 l) as [[d2 a2] ms]. exact IH.
Qed.
Lemma tale_runs : forall A (beh : behaviour A) I a l, adding beh I \/ forallb (fun x => negb (is_out (snd x))) l = true -> runs beh I a (fst (fst (tale beh a l))) (snd (fst (tale beh a l))).
Proof. intros A beh I a l M. apply acted_runs; [exact M|]. apply runs_new. cbn [fst]. lia. Qed.
