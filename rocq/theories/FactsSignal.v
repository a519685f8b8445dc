From Verif Require Import Base Lemmas Signal SpecSignal.

Lemma run_app m l1 l2 m2 : run m (l1 ++ l2) m2 -> exists m1, run m l1 m1 /\ run m1 l2 m2.
Proof.
  revert m. induction l1 as [|e l1 IH]; intros m H.
  - exists m. split; [constructor|exact H].
  - inversion H as [|? ? m1 ? ? M R]; subst. destruct (IH _ R) as (m3 & R1 & R2). exists m3. split; [econstructor; eauto|exact R2].
Qed.
Lemma run_join m l1 m1 l2 m2 : run m l1 m1 -> run m1 l2 m2 -> run m (l1 ++ l2) m2.
Proof. intros H. revert m2. induction H; intros m3 R; [exact R|]. cbn [app]. econstructor; eauto. Qed.

(* how many steps are left once running is false *)
Definition left (m : machine) : nat :=
  match place_of m with
  | Starting => 20 | Initial => 19 | Work => 3 | Check => 2 | Prepare => 7 | Waiting => 6 | Returned _ => 5 | Again => 2
  | Asked => 8 | Reinit => 7 | Reread => 6 | Stamp => 5 | Reset => 4 | Leaving => 1 | Ended _ | Killed => 0
  end.
(* how many more times it may wait *)
Definition waits_left (m : machine) : nat := match place_of m with Starting | Initial | Prepare => 1 | _ => 0 end.
Definition rereads_left (m : machine) : nat := match place_of m with Starting | Initial | Asked | Reinit | Reread => 1 | _ => 0 end.

Lemma count_cons f e l : count f (e :: l) = ((if f e then 1 else 0) + count f l)%nat.
Proof. unfold count. cbn [filter]. destruct (f e); reflexivity. Qed.
Lemma count_app f l1 l2 : count f (l1 ++ l2) = (count f l1 + count f l2)%nat.
Proof. unfold count. rewrite filter_app, app_length. reflexivity. Qed.

Lemma move_stop m e m1 : move m e m1 -> running m = false -> running m1 = false /\ (left m1 + (if goes_on e then 1 else 0) <= left m)%nat /\ (waits_left m1 + (if is_wait e then 1 else 0) <= waits_left m)%nat /\ (rereads_left m1 + (if is_reread e then 1 else 0) <= rereads_left m)%nat.
Proof.
  intros M R. destruct m as [p ru re]. cbn [running] in R. subst ru. inversion M; subst; cbn [place_of] in *; destruct p as [| | | | | [] | | | | | | | | | c | ]; try discriminate; try congruence; try (destruct re); try (destruct s);
    cbn; repeat split; lia.
Qed.
Lemma run_stop m l m1 : run m l m1 -> running m = false -> running m1 = false /\ (left m1 + count goes_on l <= left m)%nat /\ (waits_left m1 + count is_wait l <= waits_left m)%nat /\ (rereads_left m1 + count is_reread l <= rereads_left m)%nat.
Proof.
  intros H. induction H as [m|m e m1 l m2 M _ IH]; intros R.
  - unfold count. cbn [filter length]. repeat split; auto; lia.
  - destruct (move_stop _ _ _ M R) as (R1 & A & B & C). destruct (IH R1) as (R2 & A2 & B2 & C2). rewrite !count_cons. repeat split; [exact R2|lia|lia|lia].
Qed.

Lemma alive_run m l m1 : run m l m1 -> place_of m <> Starting -> place_of m1 <> Starting.
Proof.
  intros H. induction H as [m|m e m1 l m2 M _ IH]; intros A; [exact A|]. apply IH. clear IH.
  destruct m as [p ru re]. inversion M; subst; cbn [place_of] in *; destruct p as [| | | | | [] | | | | | | | | | c | ]; try discriminate; try congruence; try (destruct re); try (destruct ru); try (destruct s); cbn; discriminate.
Qed.

Lemma moves_plain m s : snd (moves m) <> Signal s /\ snd (moves m) <> Conflict.
Proof. destruct m as [p ru re]. destruct p; cbn; split; discriminate. Qed.
Lemma signal_move m s m1 : move m (Signal s) m1 -> place_of m <> Starting -> m1 = handled s m.
Proof.
  intros M A. remember (Signal s) as e. destruct M as [m O|m O|m O|m s0 O|m s0 O1 O2]; try discriminate; [exfalso; apply (proj1 (moves_plain m s) Heqe)|congruence|congruence].
Qed.
Lemma conflict_move m m1 : move m Conflict m1 -> m1 = mkmachine (place_of m) (running m) true.
Proof.
  intros M. remember Conflict as e. destruct M as [m O|m O|m O|m s0 O|m s0 O1 O2]; try discriminate; [exfalso; apply (proj2 (moves_plain m SIGINT) Heqe)|reflexivity].
Qed.

Lemma stops l1 s l2 m1 m : terminates s -> run start l1 m1 -> alive m1 -> run m1 (Signal s :: l2) m -> (count is_wait l2 <= 1)%nat /\ (count is_reread l2 <= 1)%nat /\ (count goes_on l2 <= 19)%nat.
Proof.
  intros T _ (A1 & A2) H. inversion H as [|? ? m2 ? ? M R]; subst. apply signal_move in M; [|exact A1]. subst m2.
    assert (running (handled s m1) = false) as Ru by (destruct s; [reflexivity|exfalso; apply T; reflexivity|reflexivity|reflexivity]).
    destruct (run_stop _ _ _ R Ru) as (_ & C1 & C2 & C3). 
    assert (left (handled s m1) <= 19 /\ waits_left (handled s m1) <= 1 /\ rereads_left (handled s m1) <= 1)%nat as (D1 & D2 & D3).
    { destruct m1 as [p ru re]. cbn [place_of] in *. destruct p; try congruence; cbn; repeat split; lia. }
    repeat split; lia.
Qed.

(* what is not over goes on *)
Lemma goes_on_always m : over (place_of m) = false -> exists e m1, move m e m1 /\ is_signal e = false /\ goes_on e = true.
Proof.
  intros O. exists (snd (moves m)), (fst (moves m)). split; [constructor; exact O|]. destruct m as [p ru re]. cbn [place_of] in O. destruct p as [| | | | | [] | | | | | | | | | c | ]; try discriminate; try (destruct ru); try (destruct re); cbn; repeat split.
Qed.

(* a request pending *)
Definition due (m : machine) : Prop := reload m = true /\ reloading m = false.
(* before the next wait it will be served *)
Definition soon (m : machine) : Prop := due m /\ match place_of m with Waiting | Returned _ | Again | Asked | Reinit | Reread => True | _ => False end.
Lemma due_move m e m1 : move m e m1 -> due m -> is_reread e = true \/ (due m1 /\ (is_wait e = true -> soon m1)).
Proof.
  intros M (D1 & D2). destruct m as [p ru re]. cbn [reload] in D1. subst re. inversion M; subst; cbn [place_of] in *; destruct p as [| | | | | [] | | | | | | | | | c | ]; try discriminate; try congruence; try (destruct ru); try (destruct s);
    cbn; unfold soon, due; cbn; intuition congruence.
Qed.
Lemma soon_move m e m1 : move m e m1 -> soon m -> is_reread e = true \/ (is_wait e = false /\ (soon m1 \/ place_of m1 = Leaving \/ over (place_of m1) = true)).
Proof.
  intros M ((D1 & D2) & D3). destruct m as [p ru re]. cbn [reload] in D1. subst re. inversion M; subst; cbn [place_of] in *; destruct p as [| | | | | [] | | | | | | | | | c | ]; try contradiction; try discriminate; try congruence; try (destruct ru); try (destruct s);
    cbn; unfold soon, due; cbn; intuition congruence.
Qed.
Lemma leaving_run m l m1 : run m l m1 -> place_of m = Leaving \/ over (place_of m) = true -> count is_wait l = 0%nat.
Proof.
  intros H. induction H as [m|m e m1 l m2 M _ IH]; intros L; [reflexivity|]. rewrite count_cons.
  destruct m as [p ru re]. cbn [place_of] in *. inversion M; subst; cbn [place_of] in *; destruct p as [| | | | | [] | | | | | | | | | c | ]; destruct L as [L|L]; try discriminate; try congruence; cbn; apply IH; cbn; auto.
Qed.
Lemma soon_run m l m1 : run m l m1 -> soon m -> count is_reread l = 0%nat -> count is_wait l = 0%nat.
Proof.
  intros H. induction H as [m|m e m1 l m2 M H IH]; intros D C; [reflexivity|]. rewrite count_cons in C |- *.
  destruct (soon_move _ _ _ M D) as [K|(K1 & K2)]; [rewrite K in C; discriminate|]. rewrite K1. cbn [Nat.add]. destruct K2 as [K2|K2]; [apply IH; [exact K2|destruct (is_reread e); [discriminate|exact C]]|]. eapply leaving_run; eauto.
Qed.
Lemma due_run m l m1 : run m l m1 -> due m -> count is_reread l = 0%nat -> (count is_wait l <= 1)%nat.
Proof.
  intros H. induction H as [m|m e m1 l m2 M H IH]; intros D C; [unfold count; cbn [filter length]; lia|]. rewrite count_cons in C |- *.
  destruct (due_move _ _ _ M D) as [K|(K1 & K2)]; [rewrite K in C; discriminate|]. assert (count is_reread l = 0%nat) as C' by (destruct (is_reread e); [discriminate|exact C]).
  destruct (is_wait e); [rewrite (soon_run _ _ _ H (K2 eq_refl) C'); lia|]. specialize (IH K1 C'). lia.
Qed.
Lemma reread_due l1 e l2 m1 m : is_cause e = true -> run start l1 m1 -> (e = Signal SIGHUP -> alive m1) -> reloading m1 = false -> run m1 (e :: l2) m -> (2 <= count is_wait l2)%nat -> (1 <= count is_reread l2)%nat.
Proof.
  intros C _ A N H W. inversion H as [|? ? m2 ? ? M R]; subst.
  assert (due m2) as D.
  { destruct e as [[]| | | | | |]; try discriminate.
    - apply signal_move in M; [|exact (proj1 (A eq_refl))]. subst m2. split; [reflexivity|]. unfold reloading, handled in N |- *. cbn [place_of] in *. destruct (place_of m1); try reflexivity; discriminate.
    - apply conflict_move in M. subst m2. split; [reflexivity|exact N]. }
  destruct (count is_reread l2) eqn:Z; [|lia]. pose proof (due_run _ _ _ R D Z). lia.
Qed.

(* nothing is reread without a cause *)
Definition owed (m : machine) : nat := if reload m && negb (reloading m) then 1%nat else 0%nat.
Lemma cause_move m e m1 : move m e m1 -> (match place_of m with Reinit | Reread | Stamp | Reset => reload m = true | _ => True end) ->
  (match place_of m1 with Reinit | Reread | Stamp | Reset => reload m1 = true | _ => True end) /\ (owed m1 + (if is_reread e then 1 else 0) <= owed m + (if is_cause e then 1 else 0))%nat.
Proof.
  intros M I. destruct m as [p ru re]. inversion M; subst; cbn [place_of reload] in *; destruct p as [| | | | | [] | | | | | | | | | c | ]; try discriminate; try congruence; try subst re; try (destruct re); try (destruct ru); try (destruct s);
    cbn; try (split; [auto; fail|]); try lia; repeat split; auto; lia.
Qed.
Lemma cause_run m l m1 : run m l m1 -> (match place_of m with Reinit | Reread | Stamp | Reset => reload m = true | _ => True end) -> (owed m1 + count is_reread l <= owed m + count is_cause l)%nat.
Proof.
  intros H. induction H as [m|m e m1 l m2 M _ IH]; intros A; [unfold count; cbn [filter length]; lia|]. destruct (cause_move _ _ _ M A) as (A1 & B). specialize (IH A1). rewrite !count_cons. lia.
Qed.
Lemma caused l m : run start l m -> (count is_reread l <= count is_cause l)%nat.
Proof. intros H. pose proof (cause_run _ _ _ H I) as K. cbn in K. lia. Qed.
Lemma quiet_run m l m1 : run m l m1 -> place_of m = Stamp \/ place_of m = Reset \/ (place_of m = Check /\ reload m = false) -> count is_cause l = 0%nat -> count is_reread l = 0%nat.
Proof.
  intros H A C.
  assert (owed m = 0%nat /\ (match place_of m with Reinit | Reread => False | Stamp | Reset => True | _ => True end)) as (O & B).
  { unfold owed, reloading. destruct A as [A|[A|(A & A2)]]; rewrite A; [rewrite andb_false_r|rewrite andb_false_r|rewrite A2]; split; auto. }
  revert A C O B. 
  cut ((match place_of m with Reinit | Reread => False | Stamp | Reset => True | _ => reload m = false end) -> count is_cause l = 0%nat -> count is_reread l = 0%nat).
  { intros X A C O B. apply X; [|exact C]. destruct A as [A|[A|(A & A2)]]; rewrite A; auto. }
  induction H as [m|m e m1 l m2 M _ IH]; intros A C; [reflexivity|]. rewrite count_cons in C |- *.
  assert ((match place_of m1 with Reinit | Reread => False | Stamp | Reset => True | _ => reload m1 = false end) /\ is_reread e = false) as (A1 & E).
  { destruct m as [p ru re]. inversion M; subst; cbn [place_of reload] in *; destruct p as [| | | | | [] | | | | | | | | | c | ]; try contradiction; try discriminate; try congruence; try subst re; try (destruct re); try (destruct ru); try (destruct s); cbn in C |- *; try discriminate; auto. }
  rewrite E. apply IH; [exact A1|]. destruct (is_cause e); [discriminate|exact C].
Qed.
(* turns without anything *)
Definition plain : list event := [Silent; Waits; Wakes; Silent; Silent].
Fixpoint turns (n : nat) : list event := match n with O => [] | S k => plain ++ turns k end.
Lemma turns_run n : run (mkmachine Check true false) (turns n) (mkmachine Check true false).
Proof.
  induction n as [|n IH]; [constructor|]. cbn [turns]. eapply run_join; [|exact IH].
  apply (run_more _ Silent (mkmachine Prepare true false)); [exact (mv_go (mkmachine Check true false) eq_refl)|].
  apply (run_more _ Waits (mkmachine Waiting true false)); [exact (mv_go (mkmachine Prepare true false) eq_refl)|].
  apply (run_more _ Wakes (mkmachine (Returned false) true false)); [exact (mv_go (mkmachine Waiting true false) eq_refl)|].
  apply (run_more _ Silent (mkmachine Work true false)); [exact (mv_go (mkmachine (Returned false) true false) eq_refl)|].
  apply (run_more _ Silent (mkmachine Check true false)); [exact (mv_go (mkmachine Work true false) eq_refl)|]. constructor.
Qed.
Lemma turns_waits n : count is_wait (turns n) = n.
Proof. induction n as [|n IH]; [reflexivity|]. cbn [turns]. rewrite count_app, IH. reflexivity. Qed.
Lemma turns_silent n : count is_signal (turns n) = 0%nat.
Proof. induction n as [|n IH]; [reflexivity|]. cbn [turns]. rewrite count_app, IH. reflexivity. Qed.

Lemma never_stuck m : (exists code, place_of m = Ended code) \/ place_of m = Killed \/ exists e m', move m e m' /\ goes_on e = true.
Proof.
  destruct (over (place_of m)) eqn:O.
  - destruct (place_of m); try discriminate; [left; eexists; reflexivity|right; left; reflexivity].
  - right. right. destruct (goes_on_always m O) as (e & m' & M & _ & G). exists e, m'. split; assumption.
Qed.
Lemma killed_run m l m1 : run m l m1 -> place_of m <> Starting -> place_of m <> Killed -> place_of m1 <> Killed.
Proof.
  intros H. induction H as [m|m e m1 l m2 M _ IH]; intros A B; [exact B|]. apply IH; clear IH;
  destruct m as [p ru re]; inversion M; subst; cbn [place_of] in *; destruct p as [| | | | | [] | | | | | | | | | c | ]; try discriminate; try congruence; try (destruct re); try (destruct ru); try (destruct s); cbn; discriminate.
Qed.
Lemma killed l m : run start l m -> place_of m = Killed -> exists s, l = [Signal s].
Proof.
  intros H K. inversion H as [|? e m1 l1 m2 M R]; subst; [discriminate|]. remember start as m0 eqn:E. destruct M as [m' O|m' O|m' O|m' s O|m' s O1 O2]; subst m'.
  - exfalso. cbn in R. eapply (killed_run _ _ _ R); [discriminate|discriminate|exact K].
  - discriminate.
  - discriminate.
  - inversion R as [|? ? ? ? ? M2 R2]; subst; [exists s; reflexivity|]. inversion M2; subst; cbn in *; discriminate.
  - exfalso. apply O1. reflexivity.
Qed.
(* n steps without signals *)
Fixpoint steps_of (n : nat) (m : machine) : machine := match n with O => m | S k => steps_of k (fst (moves m)) end.
Fixpoint events_of (n : nat) (m : machine) : list event := match n with O => [] | S k => snd (moves m) :: events_of k (fst (moves m)) end.
Fixpoint free_of (n : nat) (m : machine) : bool := match n with O => true | S k => negb (over (place_of m)) && free_of k (fst (moves m)) end.
Lemma steps_run_ n m : free_of n m = true -> run m (events_of n m) (steps_of n m).
Proof.
  revert m. induction n as [|n IH]; intros m F; [constructor|]. cbn [free_of] in F. apply andb_prop in F. destruct F as (F1 & F2).
  cbn [events_of steps_of]. econstructor; [constructor; destruct (over (place_of m)); [discriminate|reflexivity]|]. apply IH. exact F2.
Qed.
Lemma steps_run n m : match free_of n m with true => run m (events_of n m) (steps_of n m) | false => True end.
Proof. destruct (free_of n m) eqn:F; [apply steps_run_; exact F|constructor]. Qed.

(* leaving in order has a cause *)
Lemma stop_move m e m1 : move m e m1 -> (running m = false \/ (place_of m <> Leaving /\ place_of m <> Ended 0)) ->
  (exists s, e = Signal s /\ terminates s) \/ running m1 = false \/ (place_of m1 <> Leaving /\ place_of m1 <> Ended 0).
Proof.
  intros M I. destruct m as [p ru re]. inversion M; subst; cbn [place_of running] in *;
  try (destruct s; [left; eexists; split; [reflexivity|discriminate]| |left; eexists; split; [reflexivity|discriminate]|left; eexists; split; [reflexivity|discriminate]]); right;
  destruct p as [| | | | | [] | | | | | | | | | c | ]; try discriminate; try congruence; try (destruct re); try (destruct ru); cbn; try (left; reflexivity); try (right; split; discriminate); destruct I as [I|[I1 I2]]; try discriminate; try congruence.
Qed.
Lemma stop_run m l m1 : run m l m1 -> (running m = false \/ (place_of m <> Leaving /\ place_of m <> Ended 0)) ->
  (exists s, In (Signal s) l /\ terminates s) \/ running m1 = false \/ (place_of m1 <> Leaving /\ place_of m1 <> Ended 0).
Proof.
  intros H. induction H as [m|m e m1 l m2 M _ IH]; intros A; [right; exact A|]. destruct (stop_move _ _ _ M A) as [(s & -> & T)|B]; [left; exists s; split; [left; reflexivity|exact T]|].
  destruct (IH B) as [(s & I & T)|C]; [left; exists s; split; [right; exact I|exact T]|right; exact C].
Qed.
Lemma running_run m l m1 : run m l m1 -> running m = true -> running m1 = true \/ exists s, In (Signal s) l /\ terminates s.
Proof.
  intros H. induction H as [m|m e m1 l m2 M _ IH]; intros A; [left; exact A|].
  assert (running m1 = true \/ exists s, e = Signal s /\ terminates s) as [B|(s & -> & T)].
  { destruct m as [p ru re]. cbn [running] in A. subst ru. inversion M; subst; cbn; auto; try (destruct p; cbn; auto; fail).
    destruct s; [right; eexists; split; [reflexivity|discriminate]|left; reflexivity|right; eexists; split; [reflexivity|discriminate]|right; eexists; split; [reflexivity|discriminate]]. }
  - destruct (IH B) as [C|(s & I & T)]; [left; exact C|right; exists s; split; [right; exact I|exact T]].
  - right. exists s. split; [left; reflexivity|exact T].
Qed.
Lemma stopped l m : run start l m -> place_of m = Ended 0 -> exists s, In (Signal s) l /\ terminates s.
Proof.
  intros H E. destruct (running_run _ _ _ H eq_refl) as [R|K]; [|exact K].
  destruct (stop_run _ _ _ H ltac:(right; split; discriminate)) as [K|[K|[_ K]]]; [exact K|congruence|contradiction].
Qed.

(* a signal ends the waiting *)
Definition acting (m : machine) : Prop :=
  match place_of m with
  | Returned true => running m = false \/ reload m = true
  | Again => running m = false \/ reload m = true
  | Asked | Reinit | Reread => reload m = true
  | Leaving | Ended _ | Killed => True
  | _ => False
  end.
Lemma acting_move m e m1 : move m e m1 -> acting m -> is_reread e = true \/ (is_wake e = false /\ acting m1).
Proof.
  intros M A. destruct m as [p ru re]. unfold acting in *. inversion M; subst; cbn [place_of running reload] in *; destruct p as [| | | | | [] | | | | | | | | | c | ]; try contradiction; try discriminate; try congruence; try subst re; try (destruct re); try (destruct ru); try (destruct s);
    cbn; auto; try (destruct A; congruence); try (right; split; [reflexivity|auto]).
Qed.
Lemma acting_run m l m1 : run m l m1 -> acting m -> count is_reread l = 0%nat -> count is_wake l = 0%nat.
Proof.
  intros H. induction H as [m|m e m1 l m2 M _ IH]; intros A C; [reflexivity|]. rewrite count_cons in C |- *. destruct (acting_move _ _ _ M A) as [K|(K & A1)]; [rewrite K in C; discriminate|].
  rewrite K. apply IH; [exact A1|]. destruct (is_reread e); [discriminate|exact C].
Qed.
Lemma woken l1 s l2 m1 m : run start l1 m1 -> place_of m1 = Waiting -> run m1 (Signal s :: l2) m -> count is_reread l2 = 0%nat -> count is_wake l2 = 0%nat.
Proof.
  intros _ P H C. inversion H as [|? ? m2 ? ? M R]; subst. apply signal_move in M; [|rewrite P; discriminate]. subst m2. apply (acting_run _ _ _ R); [|exact C].
  unfold acting, handled. rewrite P. destruct s; cbn; auto.
Qed.
