(* Notions the properties about the time between messages are stated with. *)
From Verif Require Import Base Wire Rec Qry Out In Api SpecDaemon SpecLife.

(* A call of mdnsd_unique *)
Definition makes_name (o : op) : Prop := match o with OUnique _ _ _ _ => True | _ => False end.
(* mdnsd_out returned a probe. *)
Definition sends_probe (ev : event) : Prop := exists r, probes_for r ev.
(* Calls that neither set data or withdraw records nor deliver a datagram *)
Definition quiet (o : op) : Prop :=
  match o with OOut | OSleep | OEndStep | OQuery _ _ _ | ORegister _ | OSetFamily _ | OShared _ _ _ => True | _ => False end.
