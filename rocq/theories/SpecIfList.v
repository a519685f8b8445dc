(* What the list of interfaces should do: notions for property C121. *)
From Verif Require Import Base IfList.

(* The interfaces there are, in the order in which they came, with their names *)
Definition cards : Type := list (nat * list Z).
(* What is left after a loop that frees some of them; seen: those visited before, the
   latest first *)
Fixpoint kept (frees : list nat -> nat -> bool) (before : list nat) (l : cards) : cards :=
  match l with
  | [] => []
  | c :: l => (if frees before (fst c) then [] else [c]) ++ kept frees (fst c :: before) l
  end.
(* n: how many there have been *)
Definition ideal (l : cards) (n : nat) (o : op) : cards * nat * seen :=
  match o with
  | Add name => (l ++ [(n, name)], S n, Added n)
  | Find name => (l, n, Found (option_map fst (find (fun c => bytes_eqb (snd c) name) l)))
  | Loop frees => (kept frees [] l, n, Visited (map fst l))
  | Exit => ([], n, Gone)
  end.
Fixpoint ideals (l : cards) (n : nat) (os : list op) : cards * list seen :=
  match os with
  | [] => (l, [])
  | o :: os => let '(l, n, s) := ideal l n o in let '(l, ss) := ideals l n os in (l, s :: ss)
  end.
(* Memory is held for exactly these. *)
Definition holds_only (w : world) (l : cards) : Prop := forall x name, In (x, name) l <-> exists c, cells w x = Some c /\ c_name c = name.
