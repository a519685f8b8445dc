(* What C115_turn_partial is stated with. *)
From Verif Require Import Base Wire Rec Qry Out In Api Reent Step SpecStep SpecStepExact Mquery.

(* Calls of mdnsd_in one after the other, with callbacks beh *)
Inductive fed {A} (beh : behaviour A) : daemon -> A -> list (env * op) -> daemon -> A -> Prop :=
| fed_none : forall d a, fed beh d a [] d a
| fed_in : forall d a e m from d1 a1 n l d2 a2, in_re beh d a e m from = Ok (d1, a1, n) -> fed beh d1 a1 l d2 a2 -> fed beh d a ((e, OIn m from) :: l) d2 a2.
(* Calls of mdnsd_out, each message being sent as a packet, until there is none or one
   cannot be sent (false) *)
Inductive drained {A} (beh : behaviour A) : daemon -> A -> list (env * bool) -> daemon -> A -> list (addr * list Z) -> bool -> Prop :=
| drained_all : forall d a e b l d1 a1 m, out_re beh d a e = Ok (d1, a1, m, 0) -> drained beh d a ((e, b) :: l) d1 a1 [] true
| drained_not : forall d a e l d1 a1 m n, out_re beh d a e = Ok (d1, a1, m, n) -> n <> 0 -> drained beh d a ((e, false) :: l) d1 a1 [packet_of m] false
| drained_more : forall d a e l d1 a1 m n d2 a2 ps b, out_re beh d a e = Ok (d1, a1, m, n) -> n <> 0 -> drained beh d1 a1 l d2 a2 ps b -> drained beh d a ((e, true) :: l) d2 a2 (packet_of m :: ps) b.
(* The second of the last datagram that is not empty, before an error or an empty one;
   else what it was before *)
Fixpoint latest (before : Z) (l : list (env * received)) : Z :=
  match l with
  | (e, Datagram b _) :: l => if zlen b =? 0 then before else latest (fst (e_now e)) l
  | _ => before
  end.
(* A limit set with -T or -w is reached at t. *)
Definition limit (terminate : bool) (wait start last t : Z) : Prop :=
  (terminate = true /\ last <> 0 /\ last + 2 <= t) \/ (wait <> 0 /\ start + wait <= t).
