(* Finite maps from strings, independent of the code. *)
From Coq Require Import List ZArith.
Import ListNotations.

Definition fmap : Type := list Z -> option (list Z).
Definition fm_empty : fmap := fun _ => None.
Definition fm_put (m : fmap) (k : list Z) (v : option (list Z)) : fmap :=
  fun k' => if list_eq_dec Z.eq_dec k' k then v else m k'.
