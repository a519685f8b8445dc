(* TXT record data (RFC 6763 section 6), independent of the code. *)
From Coq Require Import List ZArith.
From Verif Require Import SpecDns SpecMap.
Import ListNotations.
Open Scope Z_scope.

(* The data made of the given strings: each preceded by its length. *)
Definition txt_data (strs : list (list Z)) : list Z := flat_map (fun s => len s :: s) strs.

(* The complete, non-empty strings at the beginning of arbitrary data: they end
   at an empty string or at a length that exceeds what is left. *)
Inductive strings_of : list Z -> list (list Z) -> Prop :=
| so_end : strings_of [] []
| so_empty : forall r, strings_of (0 :: r) []
| so_short : forall n r, len r < n -> strings_of (n :: r) []
| so_string : forall s r strs, s <> [] -> strings_of r strs -> strings_of (len s :: s ++ r) (s :: strs).

(* An attribute "key=value" or "key", as text up to the first NUL. *)
Fixpoint until (c : Z) (l : list Z) : list Z :=
  match l with [] => [] | x :: r => if Z.eq_dec x c then [] else x :: until c r end.
Fixpoint after (c : Z) (l : list Z) : list Z :=
  match l with [] => [] | x :: r => if Z.eq_dec x c then r else after c r end.
Definition attr_key (s : list Z) : list Z := until 61 (until 0 s).
Definition attr_val (s : list Z) : list Z := after 61 (until 0 s).

(* The attributes as a map; attributes with an empty key are ignored and a
   later attribute replaces an earlier one. *)
Definition put_attr (m : fmap) (s : list Z) : fmap :=
  match attr_key s with [] => m | k => fm_put m k (Some (attr_val s)) end.
Definition attrs (strs : list (list Z)) : fmap := fold_left put_attr strs fm_empty.

(* The string for a key and value. *)
Definition attr_string (k v : list Z) : list Z := match v with [] => k | _ => k ++ 61 :: v end.
