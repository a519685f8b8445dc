(* Asking again for what is cached: vocabulary of C95. *)
From Verif Require Import Base Hash Wire Rec Qry Out In Api SpecDaemon SpecCache.

(* The entry is an answer to the question. *)
Definition answers_to (d : daemon) (n : list Z) (ty : Z) (c : cached) : Prop := cache_holds d c /\ a_name (c_rr c) = n /\ (a_type (c_rr c) = ty \/ ty = QTYPE_ANY).
(* When the entry expires *)
Definition good_until (c : cached) : Z := a_ttl (c_rr c).
Definition asked_now (d : daemon) (n : list Z) (ty : Z) : Prop := exists y, registered d y /\ is_for y n ty.
