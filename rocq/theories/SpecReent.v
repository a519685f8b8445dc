(* Programs whose answer callbacks call the library. *)
From Verif Require Import Base Hash Wire Rec Qry Out In Api Reent SpecDaemon.

(* An answer as callbacks get it: with the name it refers to, if its type has one *)
Definition named (x : answer) : Prop :=
  In (a_type x) [QTYPE_PTR; QTYPE_NS; QTYPE_CNAME; QTYPE_SRV] -> a_rdname x <> None.

(* A call that registers a query, or gives it another callback *)
Definition registering (c : qcall) : Prop := exists host type cb, c = (host, type, Some cb).

(* Callbacks that, while the program's state satisfies I, return without an
   error of their own and keep I, and do not return -1 from a call in which they
   removed a query. *)
Definition orderly {A} (beh : behaviour A) (I : A -> Prop) : Prop :=
  forall a k x, I a -> named x -> exists a' l rm, beh a k x = Ok (a', l, rm) /\ I a' /\ (rm = true -> Forall registering l).
(* Callbacks that remove no queries at all *)
Definition adding {A} (beh : behaviour A) (I : A -> Prop) : Prop :=
  forall a k x, I a -> named x -> exists a' l, beh a k x = Ok (a', l, false) /\ I a' /\ Forall registering l.

(* The states such a program and its daemon get into.  A program whose
   callbacks remove queries does not call mdnsd_out when a query is due that was
   asked three times. *)
Inductive runs {A} (beh : behaviour A) (I : A -> Prop) (a0 : A) : daemon -> A -> Prop :=
| runs_new : forall t cls frm, 0 <= fst t -> runs beh I a0 (mdnsd_new t cls frm) a0
| runs_call : forall d a e o d' x, runs beh I a0 d a -> legal d e o -> (forall m from, o <> OIn m from) -> o <> OOut ->
    step d e o = Ok (d', x) -> runs beh I a0 d' a
| runs_in : forall d a e m from d' a' n, runs beh I a0 d a -> 0 <= fst (e_now e) -> wf_message m ->
    in_re beh d a e m from = Ok (d', a', n) -> runs beh I a0 d' a'
| runs_out : forall d a e d' a' m n, runs beh I a0 d a -> 0 <= fst (e_now e) -> adding beh I \/ unexhausted d (fst (e_now e)) ->
    out_re beh d a e = Ok (d', a', m, n) -> runs beh I a0 d' a'.

(* What becomes of the program when its callbacks are called with T, in order *)
Inductive replayed {A} (beh : behaviour A) : A -> list (nat * answer) -> A -> Prop :=
| replayed_nil : forall a, replayed beh a [] a
| replayed_call : forall a k x a' l rm T a'', beh a k x = Ok (a', l, rm) -> replayed beh a' T a'' -> replayed beh a ((k, x) :: T) a''.

(* The messages mdnsd_out returns while such a program goes on and the clock is
   not set back *)
Inductive goes_on {A} (beh : behaviour A) (I : A -> Prop) (d0 : daemon) (a0 : A) : list omsg -> daemon -> A -> Prop :=
| on_start : goes_on beh I d0 a0 [] d0 a0
| on_call : forall ms d a e o d' x, goes_on beh I d0 a0 ms d a -> fst (now d) <= fst (e_now e) -> legal d e o -> (forall m from, o <> OIn m from) -> o <> OOut ->
    step d e o = Ok (d', x) -> goes_on beh I d0 a0 ms d' a
| on_in : forall ms d a e m from d' a' n, goes_on beh I d0 a0 ms d a -> fst (now d) <= fst (e_now e) -> wf_message m ->
    in_re beh d a e m from = Ok (d', a', n) -> goes_on beh I d0 a0 ms d' a'
| on_out : forall ms d a e d' a' m n, goes_on beh I d0 a0 ms d a -> fst (now d) <= fst (e_now e) -> adding beh I \/ unexhausted d (fst (e_now e)) ->
    out_re beh d a e = Ok (d', a', m, n) -> goes_on beh I d0 a0 (ms ++ [m]) d' a'.

(* No record and no unicast reply waits to be sent, and no goodbyes *)
Definition nothing_waits (d : daemon) : Prop := uans (R d) = [] /\ (forall q r, ~ waits d q r) /\ is_shutdown d = false.
