(* What is said about signals, in terms of what can be seen of the program. *)
From Verif Require Import Base Signal.

(* src/mdnsd.c:258-264 the signals that ask the program to stop *)
Definition terminates (s : signal) : Prop := s <> SIGHUP.
Definition is_signal (e : event) : bool := match e with Signal _ => true | _ => false end.
Definition is_wait (e : event) : bool := match e with Waits => true | _ => false end.
Definition is_reread (e : event) : bool := match e with Rereads => true | _ => false end.
Definition is_cause (e : event) : bool := match e with Signal SIGHUP | Conflict => true | _ => false end.
Definition is_conflict (e : event) : bool := match e with Conflict => true | _ => false end.
(* A step of the program itself *)
Definition goes_on (e : event) : bool := negb (is_signal e || is_conflict e).
(* How often something happened *)
Definition count (what : event -> bool) (l : list event) : nat := length (filter what l).
(* The handlers are installed and the program has not exited *)
Definition alive (m : machine) : Prop := place_of m <> Starting /\ over (place_of m) = false.
(* The configuration has been read anew but the request is not yet ticked off *)
Definition reloading (m : machine) : bool := match place_of m with Stamp | Reset => true | _ => false end.
Definition is_wake (e : event) : bool := match e with Waits | Wakes => true | _ => false end.
