(* Model of the list of interfaces of src/addr.c: a TAILQ of sys/queue.h, and the
   iterator with its static variable. *)
From Verif Require Import Base.

(* struct iface, src/mdnsd.h:58-76: the name and the links.  A link to the head of the list
   is None. *)
Record cell : Type := mkcell { c_name : list Z; c_next : option nat; c_prev : option nat }.
(* iface_list (addr.c:46), whose tqh_last is the element whose link is last, None for the
   head itself; next: the static variable of iface_iterator.  Elements are numbered in
   the order in which they are allocated; a freed one is None and its number is not used
   again. *)
Record world : Type := mkworld { cells : nat -> option cell; first : option nat; last : option nat; used : nat; next : option nat }.
Definition start : world := mkworld (fun _ => None) None None 0 None.

Definition get (w : world) (x : nat) : res cell := match cells w x with Some c => Ok c | None => UB UseAfterFree end.
Definition put (w : world) (x : nat) (c : option cell) : world := mkworld (fun y => if Nat.eqb y x then c else cells w y) (first w) (last w) (used w) (next w).
Definition with_first (w : world) (p : option nat) : world := mkworld (cells w) p (last w) (used w) (next w).
Definition with_last (w : world) (p : option nat) : world := mkworld (cells w) (first w) p (used w) (next w).
Definition with_next (w : world) (p : option nat) : world := mkworld (cells w) (first w) (last w) (used w) p.

(* sys/queue.h: *tqe_prev = v, for the element or the head *)
Definition set_next (w : world) (at_ : option nat) (v : option nat) : res world :=
  match at_ with
  | None => Ok (with_first w v)
  | Some p => c <- get w p;; Ok (put w p (Some (mkcell (c_name c) v (c_prev c))))
  end.
(* addr.c:178-187 calloc, TAILQ_INSERT_TAIL, strlcpy *)
Definition add (w : world) (name : list Z) : res (world * nat) :=
  let x := used w in
  let w1 := mkworld (fun y => if Nat.eqb y x then Some (mkcell name None (last w)) else cells w y) (first w) (last w) (S x) (next w) in
  w2 <- set_next w1 (last w) (Some x);;
  Ok (with_last w2 (Some x), x).
(* TAILQ_REMOVE *)
Definition remove (w : world) (x : nat) : res world :=
  c <- get w x;;
  w <- match c_next c with
       | Some n => cn <- get w n;; Ok (put w n (Some (mkcell (c_name cn) (c_next cn) (c_prev c))))
       | None => Ok (with_last w (c_prev c))
       end;;
  set_next w (c_prev c) (c_next c).
(* addr.c:79-86 *)
Definition iface_free (w : world) (x : nat) : res world := w <- remove w x;; Ok (put w x None).
(* addr.c:48-63 *)
Definition iface_iterator (w : world) (from_start : bool) : res (world * option nat) :=
  match (if from_start then first w else next w) with
  | None => Ok (w, None)
  | Some x => c <- get w x;; Ok (with_next w (c_next c), Some x)
  end.
(* for (iface = iface_iterator(1); iface; iface = iface_iterator(0)) body, as in
   addr.c:92-98 and 106-119, src/mdnsd.c:244-245, 399-413, 425-432, 449-480, 484-485.  body
   gets what was visited before, the latest first, and iface. *)
Fixpoint visit (body : world -> list nat -> nat -> res world) (fuel : nat) (w : world) (from_start : bool) (seen : list nat) : res (world * list nat) :=
  match fuel with
  | O => Hang
  | S fuel =>
      '(w, i) <- iface_iterator w from_start;;
      match i with
      | None => Ok (w, rev seen)
      | Some x => w <- body w seen x;; visit body fuel w false (x :: seen)
      end
  end.
(* addr.c:65-77 *)
Fixpoint find_loop (fuel : nat) (w : world) (from_start : bool) (name : list Z) : res (world * option nat) :=
  match fuel with
  | O => Hang
  | S fuel =>
      '(w, i) <- iface_iterator w from_start;;
      match i with
      | None => Ok (w, None)
      | Some x => c <- get w x;; if bytes_eqb (c_name c) name then Ok (w, Some x) else find_loop fuel w false name
      end
  end.
Definition iface_find (w : world) (name : list Z) : res (world * option nat) := find_loop (S (used w)) w true name.
(* addr.c:228-236, TAILQ_FOREACH_SAFE *)
Fixpoint exit_loop (fuel : nat) (w : world) (i : option nat) : res world :=
  match fuel with
  | O => Hang
  | S fuel =>
      match i with
      | None => Ok w
      | Some x => c <- get w x;; w <- iface_free w x;; exit_loop fuel w (c_next c)
      end
  end.
Definition iface_exit (w : world) : res world := exit_loop (S (used w)) w (first w).

(* What mdnsd does with the list *)
Inductive op : Type :=
| Add (name : list Z)
| Find (name : list Z)
| Loop (frees : list nat -> nat -> bool)   (* a loop whose body frees the interface it is at, or not *)
| Exit.
Inductive seen : Type := Added (x : nat) | Found (x : option nat) | Visited (l : list nat) | Gone.
Definition perform (w : world) (o : op) : res (world * seen) :=
  match o with
  | Add name => '(w, x) <- add w name;; Ok (w, Added x)
  | Find name => '(w, x) <- iface_find w name;; Ok (w, Found x)
  | Loop frees => '(w, l) <- visit (fun w s x => if frees s x then iface_free w x else Ok w) (S (used w)) w true [];; Ok (w, Visited l)
  | Exit => w <- iface_exit w;; Ok (w, Gone)
  end.
Fixpoint performs (w : world) (os : list op) : res (world * list seen) :=
  match os with
  | [] => Ok (w, [])
  | o :: os => '(w, s) <- perform w o;; '(w, ss) <- performs w os;; Ok (w, s :: ss)
  end.
