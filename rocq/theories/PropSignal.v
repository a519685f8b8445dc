(* Property theorems C110 and C111: signals.  Vocabulary: Signal.v, SpecSignal.v. *)
From Verif Require Import Base Signal SpecSignal FactsSignal.

(* ---- C110: a signal ends the program ---- *)
(* SIGINT, SIGQUIT or SIGTERM comes at any point after the handlers are installed.
   Whatever other signals and conflicts come after it, the program waits at most
   once more, reads its configuration at most once more and takes at most 19 steps;
   and it can take one until it has exited. *)
Theorem C110_stops : forall l1 m1 s l2 m, terminates s -> run start l1 m1 -> alive m1 -> run m1 (Signal s :: l2) m ->
  (count is_wait l2 <= 1)%nat /\ (count is_reread l2 <= 1)%nat /\ (count goes_on l2 <= 19)%nat.
Proof. intros l1 m1 s l2 m. exact (stops l1 s l2 m1 m). Qed.
Print Assumptions C110_stops.
Theorem C110_goes_on : forall l m, run start l m -> (exists code, place_of m = Ended code) \/ place_of m = Killed \/ exists e m', move m e m' /\ goes_on e = true.
Proof. intros l m _. exact (never_stuck m). Qed.
Print Assumptions C110_goes_on.
(* A signal that comes before the handlers are installed kills the program, later ones do not *)
Theorem C110_killed : forall l m, run start l m -> place_of m = Killed -> exists s, l = [Signal s].
Proof. exact killed. Qed.
Print Assumptions C110_killed.
(* Only these signals make it leave; it may fail in sys_init otherwise *)
Theorem C110_asked : forall l m, run start l m -> place_of m = Ended 0 -> exists s, In (Signal s) l /\ terminates s.
Proof. exact stopped. Qed.
Print Assumptions C110_asked.
(* A signal that comes while the program waits ends the waiting: it does not wait
   on or again before it has read the configuration or ended *)
Theorem C110_woken : forall l1 m1 s l2 m, run start l1 m1 -> place_of m1 = Waiting -> run m1 (Signal s :: l2) m -> count is_reread l2 = 0%nat -> count is_wake l2 = 0%nat.
Proof. intros l1 m1 s l2 m. exact (woken l1 s l2 m1 m). Qed.
Print Assumptions C110_woken.
(* SIGTERM comes between the test of running and select: the program waits once more, then exits *)
Example C110_case : exists m1 m, run start [Silent; Silent; Silent] m1 /\ place_of m1 = Prepare /\ alive m1 /\
  run m1 [Signal SIGTERM; Waits; Wakes; Silent; Silent; Silent; Ends 0] m /\ place_of m = Ended 0.
Proof.
  exists (mkmachine Prepare true false), (mkmachine (Ended 0) false false). repeat split; try discriminate.
  - apply (steps_run 3 start).
  - eapply run_more; [apply mv_signal; [discriminate|reflexivity]|]. exact (steps_run 6 (mkmachine Prepare false false)).
Qed.

(* ---- C111: SIGHUP makes the program read its configuration anew ---- *)
(* Missing: the case that SIGHUP comes between the reading and the line
   reload = 0; then it is lost (C111_refuted_lost).  Otherwise the configuration
   is read before the program waits for the second time.  The same holds for a
   conflict. *)
Theorem C111_reload_partial : forall l1 m1 e l2 m, is_cause e = true -> run start l1 m1 -> (e = Signal SIGHUP -> alive m1) -> reloading m1 = false -> run m1 (e :: l2) m ->
  (2 <= count is_wait l2)%nat -> (1 <= count is_reread l2)%nat.
Proof. intros l1 m1 e l2 m. exact (reread_due l1 e l2 m1 m). Qed.
Print Assumptions C111_reload_partial.
(* It is never read anew without a cause *)
Theorem C111_caused : forall l m, run start l m -> (count is_reread l <= count is_cause l)%nat.
Proof. exact caused. Qed.
Print Assumptions C111_caused.
(* A SIGHUP that comes while the program writes its PID file after reading: it is
   never acted on, however long the program runs *)
Theorem C111_refuted_lost : exists l1 m1 m2, run start l1 m1 /\ alive m1 /\ move m1 (Signal SIGHUP) m2 /\
  (forall n, exists l m, run m2 l m /\ count is_wait l = n /\ count is_signal l = 0%nat) /\
  (forall l m, run m2 l m -> count is_cause l = 0%nat -> count is_reread l = 0%nat).
Proof.
  exists ([Silent; Silent; Silent; Waits] ++ [Signal SIGHUP] ++ [Silent; Silent; Silent; Silent; Rereads]), (mkmachine Stamp true true), (mkmachine Stamp true true).
  split.
  { eapply run_join; [exact (steps_run 4 start)|]. eapply run_more; [apply mv_signal; [discriminate|reflexivity]|]. exact (steps_run 5 (mkmachine (Returned true) true true)). }
  split; [split; [discriminate|reflexivity]|]. split; [exact (mv_signal (mkmachine Stamp true true) SIGHUP ltac:(discriminate) eq_refl)|]. split.
  - intros n. exists ([Silent; Silent] ++ turns n), (mkmachine Check true false). split; [|split].
    + eapply run_join; [exact (steps_run 2 (mkmachine Stamp true true))|apply turns_run].
    + rewrite count_app, turns_waits. reflexivity.
    + rewrite count_app, turns_silent. reflexivity.
  - intros l m R. apply (quiet_run _ _ _ R). left. reflexivity.
Qed.
Print Assumptions C111_refuted_lost.
(* SIGHUP while the program waits *)
Example C111_case : exists m1 m, run start [Silent; Silent; Silent; Waits] m1 /\ alive m1 /\ reloading m1 = false /\
  run m1 [Signal SIGHUP; Silent; Silent; Silent; Silent; Rereads; Silent; Silent; Silent; Waits; Wakes; Silent; Silent; Silent; Waits] m /\ place_of m = Waiting /\ reload m = false.
Proof.
  exists (mkmachine Waiting true false), (mkmachine Waiting true false). repeat split; try discriminate.
  - exact (steps_run 4 start).
  - eapply run_more; [apply mv_signal; [discriminate|reflexivity]|]. exact (steps_run 14 (mkmachine (Returned true) true true)).
Qed.
