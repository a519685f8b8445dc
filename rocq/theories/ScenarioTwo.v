(* Scenes with two hosts, for the examples. *)
From Verif Require Import Base Wire Rec Qry Out In Api SpecDaemon Step Scenario SpecTwo.

Definition addr1 : addr := mkaddr AF_INET [10; 0; 0; 1] 5353.
Definition addr2 : addr := mkaddr AF_INET [10; 0; 0; 2] 5353.

Definition by_itselfb (o : op) : bool := match o with OOut | OIn _ _ => false | _ => true end.
Lemma by_itself_ok : forall o, by_itselfb o = true -> by_itself o.
Proof. intros [] K; try exact Logic.I; discriminate. Qed.

(* One call of a host; a message that is sent is heard by the other *)
Definition turn (p : daemon * daemon) (first : bool) (t : tv) (o : op) : daemon * daemon :=
  let '(a, b) := if first then p else (snd p, fst p) in
  if legalb a t o then
    match step a (at_ t) o with
    | Ok (a', x) =>
        let '(a, b) :=
          match o, x with
          | OOut, RMsg m n =>
              match process_in b (if n =? 0 then [] else [(at_ t, Datagram (snd (packet_of m)) (if first then addr1 else addr2))]) with
              | Ok (b', 0) => (a', b')
              | _ => (a, b)
              end
          | _, _ => if by_itselfb o then (a', b) else (a, b)
          end in
        if first then (a, b) else (b, a)
    | _ => p
    end
  else p.
Lemma turn_together : forall p f t o, together addr1 addr2 (fst p) (snd p) -> together addr1 addr2 (fst (turn p f t o)) (snd (turn p f t o)).
Proof.
  intros [a b] [] t o H; unfold turn; cbn [fst snd] in *.
  - destruct (legalb a t o) eqn:L; [|exact H]. apply legalb_ok in L. destruct (step a (at_ t) o) as [[a' x]| | |] eqn:E; try exact H.
    assert (Alone : by_itselfb o = true -> together addr1 addr2 a' b) by (intros B; eapply tg_call1; [exact H|apply by_itself_ok, B|exact L|exact E]).
    destruct o; cbn [by_itselfb]; try (apply Alone; reflexivity); try exact H. destruct x as [| |m n| |]; try exact H.
    destruct (process_in b _) as [[b' [|c|c]]| | |] eqn:P; try exact H. eapply tg_send1; [exact H|exact L|exact E|reflexivity|exact P].
  - destruct (legalb b t o) eqn:L; [|exact H]. apply legalb_ok in L. destruct (step b (at_ t) o) as [[b' x]| | |] eqn:E; try exact H.
    assert (Alone : by_itselfb o = true -> together addr1 addr2 a b') by (intros B; eapply tg_call2; [exact H|apply by_itself_ok, B|exact L|exact E]).
    destruct o; cbn [by_itselfb]; try (apply Alone; reflexivity); try exact H. destruct x as [| |m n| |]; try exact H.
    destruct (process_in a _) as [[a' [|c|c]]| | |] eqn:P; try exact H. eapply tg_send2; [exact H|exact L|exact E|reflexivity|exact P].
Qed.
Definition duet (l : list (bool * tv * op)) : daemon * daemon := fold_left (fun p x => turn p (fst (fst x)) (snd (fst x)) (snd x)) l (mdnsd_new (1, 0) 1 1400, mdnsd_new (1, 0) 1 1400).
Lemma duet_together : forall l, together addr1 addr2 (fst (duet l)) (snd (duet l)).
Proof.
  intros l. unfold duet. assert (G : forall l p, together addr1 addr2 (fst p) (snd p) -> together addr1 addr2 (fst (fold_left (fun p x => turn p (fst (fst x)) (snd (fst x)) (snd x)) l p)) (snd (fold_left (fun p x => turn p (fst (fst x)) (snd (fst x)) (snd x)) l p))).
  { clear l. induction l as [|x l IH]; intros p H; [exact H|]. cbn [fold_left]. apply IH. apply turn_together. exact H. }
  apply G. cbn [fst snd]. apply tg_new; cbn [fst]; lia.
Qed.
