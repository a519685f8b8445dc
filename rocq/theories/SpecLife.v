(* Notions the life-cycle properties of records are stated with. *)
From Verif Require Import Base Wire Rec Qry Out In Api SpecDaemon.

(* P holds of exactly n events; of at least n *)
Inductive times (P : event -> Prop) : nat -> list event -> Prop :=
| times_none : times P 0 []
| times_hit : forall n l ev, times P n l -> P ev -> times P (S n) (l ++ [ev])
| times_miss : forall n l ev, times P n l -> ~ P ev -> times P n (l ++ [ev]).
Inductive seen (P : event -> Prop) : nat -> list event -> Prop :=
| seen_none : seen P 0 []
| seen_hit : forall n l ev, seen P n l -> P ev -> seen P (S n) (l ++ [ev])
| seen_skip : forall n l ev, seen P n l -> seen P n (l ++ [ev]).

(* mdnsd_out returned a probe for record r: a question for its name, and the
   record itself in the authority section *)
Definition probes_for (r : nat) (ev : event) : Prop :=
  exists m n X, ev_call ev = OOut /\ ev_result ev = RMsg m n /\ o_qr m = false /\ record (ev_before ev) r X /\
    says m (IQuestion (a_name (rr X)) (a_type (rr X)) (class (ev_before ev))) /\ says m (shown SNs (class (ev_before ev)) X).
(* mdnsd_out returned a multicast response with record r in the answer section *)
Definition multicasts (r : nat) (ev : event) : Prop :=
  exists m n X, ev_call ev = OOut /\ ev_result ev = RMsg m n /\ o_qr m = true /\ uans (R (ev_before ev)) = [] /\ record (ev_before ev) r X /\
    says m (as_answer (class (ev_before ev)) (r, X)).
(* ... as an announcement, not as a reply *)
Definition announces (r : nat) (ev : event) : Prop := multicasts r ev /\ waits (ev_before ev) Publish r.

(* No other record has the same name, type, TTL and data *)
Definition singular (d : daemon) (r : nat) : Prop :=
  forall X y Y, record d r X -> record d y Y -> y <> r -> shown SAn 0 Y <> shown SAn 0 X.

(* The call sets the data of record r. *)
Definition sets_raw (o : op) (r : nat) : Prop :=
  match o with OSetRaw x _ | OSetHost x _ | OSetIp x _ | OSetIp6 x _ | OSetSrv x _ _ _ _ => r = x | _ => False end.
Definition updates (d : daemon) (o : op) (r : nat) : Prop :=
  match o with
  | OSetAddress _ => exists X, record d r X /\ a_type (rr X) = QTYPE_A
  | OSetAddress6 _ => exists X, record d r X /\ a_type (rr X) = QTYPE_AAAA
  | _ => sets_raw o r
  end.

(* Nothing is left of the record *)
Definition gone (d : daemon) (r : nat) : Prop :=
  (forall X, ~ record d r X) /\ ~ published d r /\ (forall q, ~ waits d q r) /\ forall u, In u (uans (R d)) -> u_r u <> r.

(* The answers of a multicast response *)
Definition goodbyes (ev : event) : list item :=
  match ev_result ev, uans (R (ev_before ev)) with RMsg m _, [] => answers_of m | _, _ => [] end.
(* ... and what a goodbye for record X shows: the record with TTL 0 *)
Definition farewell (cls : Z) (p : nat * mrec) : item :=
  IRecord SAn (a_name (rr (snd p))) (a_type (rr (snd p))) (flushing cls (snd p)) 0 (a_copy (rr (snd p))).

(* The record was withdrawn and waits for its goodbye to be sent. *)
Definition leaving (d : daemon) (r : nat) : Prop := exists X q, record d r X /\ a_ttl (rr X) = 0 /\ q <> Probing /\ waits d q r.
(* A call of mdnsd_out *)
Definition calls_out (ev : event) : Prop := ev_call ev = OOut.

(* Something is left to do for the daemon: a unicast reply, a queued record or a
   registered query. *)
Definition pending (d : daemon) : Prop := uans (R d) <> [] \/ (exists q r, waits d q r) \/ checkq (Q d) <> 0.
