(* Model of the control flow of main() in src/mdnsd.c and of its signal handlers,
   at the grain at which signals can come in between.  What the program does to
   interfaces and sockets is in Main.v; here it is one step, after which the
   program may go on or, where sys_init is called, have exited. *)
From Verif Require Import Base.

(* src/mdnsd.c:258-264 the signals with handlers.  signal(2) of Linux: handlers
   stay installed, and select(2) is interrupted by them. *)
Inductive signal : Type := SIGINT | SIGHUP | SIGQUIT | SIGTERM.

(* Where the program is; the next thing it does is:
   Starting: options, daemon(3) and sig_init (310-384); Initial: sys_init, pidfile,
   netlink_init (385-387); Check: the condition of while (389); Prepare: the
   fd_set (392-417); Waiting: in select (419); Returned: the test of 420, with whether
   select was interrupted; Again: the test of running (421); Asked: the test of reload
   (423); Reinit: sys_init (424); Reread: records_clear and conf_init (425-432);
   Stamp: pidfile (433); Reset: reload = 0 (434); Work: 440-481; Leaving: 484-490.
   Simplified: reading the configuration is one step, so a signal that comes while
   it is read counts as one that comes after it was read. *)
Inductive place : Type :=
| Starting | Initial | Check | Prepare | Waiting | Returned (interrupted : bool) | Again | Asked | Reinit | Reread | Stamp | Reset | Work | Leaving
| Ended (code : Z) | Killed.

(* src/mdnsd.c:52-53 *)
Record machine : Type := mkmachine { place_of : place; running : bool; reload : bool }.
Definition start : machine := mkmachine Starting true false.

(* What can be seen: a signal, that the program starts to wait in select and stops,
   that it reads the configuration anew, that a conflict is found, that it exits *)
Inductive event : Type := Signal (s : signal) | Waits | Wakes | Rereads | Conflict | Ends (code : Z) | Silent.

Definition over (p : place) : bool := match p with Ended _ | Killed => true | _ => false end.
(* src/mdnsd.c:248-256 done and reconf *)
Definition handled (s : signal) (m : machine) : machine :=
  mkmachine (match place_of m with Waiting => Returned true | p => p end)
            (match s with SIGHUP => running m | _ => false end)
            (match s with SIGHUP => true | _ => reload m end).
(* Where sys_init is called, which exits without a socket; and where mdnsd_step
   is called, which may call mdnsd_conflict (89-97): sys_init frees interfaces
   that are gone *)
Definition inits (p : place) : bool := match p with Initial | Reinit | Work => true | _ => false end.
Definition steps (p : place) : bool := match p with Initial | Reinit | Work | Leaving => true | _ => false end.

(* Without signals *)
Definition moves (m : machine) : machine * event :=
  let go p := mkmachine p (running m) (reload m) in
  match place_of m with
  | Starting => (go Initial, Silent)
  | Initial => (go Check, Silent)
  | Check => (go (if running m then Prepare else Leaving), Silent)
  | Prepare => (go Waiting, Waits)
  | Waiting => (go (Returned false), Wakes)
  | Returned b => (go (if b || reload m then Again else Work), Silent)
  | Again => (go (if running m then Asked else Leaving), Silent)
  | Asked => (go (if reload m then Reinit else Check), Silent)
  | Reinit => (go Reread, Silent)
  | Reread => (go Stamp, Rereads)
  | Stamp => (go Reset, Silent)
  | Reset => (mkmachine Check (running m) false, Silent)
  | Work => (go Check, Silent)
  | Leaving => (go (Ended 0), Ends 0)
  | Ended c => (m, Silent)
  | Killed => (m, Silent)
  end.

Inductive move : machine -> event -> machine -> Prop :=
| mv_go : forall m, over (place_of m) = false -> move m (snd (moves m)) (fst (moves m))
| mv_exit : forall m, inits (place_of m) = true -> move m (Ends 1) (mkmachine (Ended 1) (running m) (reload m))
| mv_conflict : forall m, steps (place_of m) = true -> move m Conflict (mkmachine (place_of m) (running m) true)
| mv_kill : forall m s, place_of m = Starting -> move m (Signal s) (mkmachine Killed (running m) (reload m))
| mv_signal : forall m s, place_of m <> Starting -> over (place_of m) = false -> move m (Signal s) (handled s m).

Inductive run : machine -> list event -> machine -> Prop :=
| run_none : forall m, run m [] m
| run_more : forall m e m1 l m2, move m e m1 -> run m1 l m2 -> run m (e :: l) m2.
