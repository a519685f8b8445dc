(* Model of libmdnsd/xht.c, the string hash table.  Allocations are assumed to
   succeed.  Keys are C strings without terminator; a caller's key passed to
   xht_set is assumed to stay unchanged while it is in the table, as the code
   requires.  Values are represented by the bytes they point at. *)
From Verif Require Import Base Hash.

Definition value : Type := list Z.

(* libmdnsd/xht.c:36-44 struct xhn.  Instead of the flag "we manage the memory
   of key and value", the number of the xht_store call that allocated them. *)
Record node : Type := mknode { n_own : option nat; n_key : option (list Z); n_val : option value }.

(* libmdnsd/xht.c:46-49 struct xht: a bucket is the embedded first node
   followed by the chained ones.  x_next and x_freed are not in the code: they
   number the allocations and record which have been freed. *)
Record xht : Type := mkxht { x_prime : Z; x_zen : list (list node); x_next : nat; x_freed : list nat }.

Definition empty_node : node := mknode None None None.

(* xht.c:82-98 *)
Definition xht_new (prime : Z) : xht := mkxht prime (repeat [empty_node] (Z.to_nat prime)) 0 [].

(* Index of the first node satisfying p. *)
Fixpoint find_idx (p : node -> bool) (l : list node) : option nat :=
  match l with
  | [] => None
  | n :: r => if p n then Some O else match find_idx p r with Some j => Some (S j) | None => None end
  end.

Definition has_key (key : list Z) (n : node) : bool :=
  match n_key n with Some k => bytes_eqb key k | None => false end.
Definition no_val (n : node) : bool := match n_val n with None => true | Some _ => false end.

(* xht.c:107-139: node to use within a bucket, adding one after the first if
   none is found. *)
Definition pick (bk : list node) (key : list Z) : list node * nat :=
  match find_idx (has_key key) bk with
  | Some j => (bk, j)
  | None =>
      match find_idx no_val bk with
      | Some j => (bk, j)
      | None => match bk with
                | [] => ([], O)
                | hd :: tl => (hd :: empty_node :: tl, 1%nat)
                end
      end
  end.

Definition index (h : xht) (key : list Z) : nat := Z.to_nat (bucket_index key (x_prime h)).

(* xht.c:101-139 _xht_set *)
Definition xht_set1 (h : xht) (key : list Z) (val : option value) (own : option nat) : xht :=
  let i := index h key in
  let '(bk, j) := pick (nth i (x_zen h) []) key in
  let old := nth j bk empty_node in
  mkxht (x_prime h) (upd (x_zen h) i (upd bk j (mknode own (Some key) val))) (x_next h)
        (x_freed h ++ match n_own old with Some a => [a] | None => [] end).

(* xht.c:141-146 *)
Definition xht_set (h : xht) (key : list Z) (val : option value) : xht := xht_set1 h key val None.

(* xht.c:148-172: copies of klen bytes of the key and vlen bytes of the value;
   the key is then used as a C string. *)
Definition xht_store (h : xht) (key : list Z) (klen : nat) (val : option (list Z)) (vlen : nat) : xht :=
  match klen, val with
  | O, _ => h
  | _, None => h
  | _, Some v =>
      xht_set1 (mkxht (x_prime h) (x_zen h) (S (x_next h)) (x_freed h)) (cstr (firstn klen key)) (Some (firstn vlen v)) (Some (x_next h))
  end.

(* xht.c:73-79 and 174-186 *)
Definition lookup (bk : list node) (key : list Z) : option value :=
  match find (has_key key) bk with Some n => n_val n | None => None end.
Definition xht_get (h : xht) (key : list Z) : option value := lookup (nth (index h key) (x_zen h) []) key.

(* xht.c:226-239: the (key, value) pairs passed to the callback, in order. *)
Definition node_pair (n : node) : list (list Z * value) :=
  match n_key n, n_val n with Some k, Some v => [(k, v)] | _, _ => [] end.
Definition xht_walk (h : xht) : list (list Z * value) := flat_map node_pair (concat (x_zen h)).

(* xht.c:189-224: what xht_free releases, in order. *)
Definition node_own (n : node) : list nat := match n_own n with Some a => [a] | None => [] end.
Definition xht_free (h : xht) : list nat := flat_map node_own (concat (x_zen h)).

(* Sequences of operations. *)
Inductive xop : Type :=
| XSet (key : list Z) (val : option value)
| XStore (key : list Z) (klen : nat) (val : option (list Z)) (vlen : nat).
Definition xht_do (h : xht) (o : xop) : xht :=
  match o with
  | XSet k v => xht_set h k v
  | XStore k kl v vl => xht_store h k kl v vl
  end.
Definition xht_run (prime : Z) (ops : list xop) : xht := fold_left xht_do ops (xht_new prime).
