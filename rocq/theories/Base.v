(* Common vocabulary of the model: C integers as Z, byte strings as lists of
   Z, and computations that can reject, run into undefined behaviour or fail
   to terminate. *)
From Coq Require Export List ZArith Bool Lia.
From Coq Require Export ZifyBool ZifyNat.
Export ListNotations.
Global Open Scope Z_scope.

(* Kinds of undefined behaviour the model distinguishes. *)
Inductive ub : Type :=
| OobRead (off : Z)        (* read outside the C object, at this offset *)
| OobWrite (off : Z)       (* write outside the C object, at this offset *)
| UseAfterFree             (* access to a freed heap object *)
| NullDeref                (* access through a NULL pointer *).

(* Outcome of a C function that may fail. *)
Inductive res (A : Type) : Type :=
| Ok (a : A)               (* normal completion *)
| Rej                      (* the C function reports an error to its caller *)
| UB (u : ub)              (* undefined behaviour *)
| Hang.                    (* the C loop does not terminate *)
Arguments Ok {A} a.
Arguments Rej {A}.
Arguments UB {A} u.
Arguments Hang {A}.

Definition bind {A B : Type} (x : res A) (f : A -> res B) : res B :=
  match x with
  | Ok a => f a
  | Rej => Rej
  | UB u => UB u
  | Hang => Hang
  end.

Declare Scope res_scope.
Delimit Scope res_scope with res.
Notation "x <- e ;; k" := (bind e (fun x => k))
  (at level 61, e at next level, right associativity) : res_scope.
Notation "' p <- e ;; k" := (bind e (fun p => k))
  (at level 61, p pattern, e at next level, right associativity) : res_scope.
Global Open Scope res_scope.

(* A byte is an integer in [0,255]. *)
Definition is_byte (b : Z) : Prop := 0 <= b < 256.
Definition bytes (l : list Z) : Prop := Forall is_byte l.

(* Length as an integer. *)
Definition zlen {A : Type} (l : list A) : Z := Z.of_nat (length l).

(* Element of a byte list, 0 when out of range. *)
Definition zget (l : list Z) (i : Z) : Z :=
  if (0 <=? i) && (i <? zlen l) then nth (Z.to_nat i) l 0 else 0.

(* Value of a byte read through a (signed) char, x86-64 ABI. *)
Definition schar (b : Z) : Z := if b <? 128 then b else b - 256.

(* The C string starting at the head of a byte sequence: up to the first NUL. *)
Fixpoint cstr (l : list Z) : list Z :=
  match l with
  | [] => []
  | b :: t => if b =? 0 then [] else b :: cstr t
  end.

Fixpoint bytes_eqb (a b : list Z) : bool :=
  match a, b with
  | [], [] => true
  | x :: a', y :: b' => (x =? y) && bytes_eqb a' b'
  | _, _ => false
  end.

(* Consecutive integers o, o+1, ..., o+n-1. *)
Fixpoint zseq (o : Z) (n : nat) : list Z :=
  match n with
  | O => []
  | S n' => o :: zseq (o + 1) n'
  end.

(* Replace element i of a list. *)
Fixpoint upd {A : Type} (l : list A) (i : nat) (v : A) : list A :=
  match l, i with
  | [], _ => []
  | _ :: t, O => v :: t
  | x :: t, S i' => x :: upd t i' v
  end.
