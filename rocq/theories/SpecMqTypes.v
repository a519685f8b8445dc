(* Notions for the lookups of mquery -D. *)
From Verif Require Import Base Wire Rec Qry Out In Api Reent SpecDaemon SpecReent Step SpecStep Mquery SpecMquery.

(* The sessions that begin with the query for this name and type, as the loop in
   SpecMquery.v *)
Inductive session_of {A} (beh : behaviour A) (a0 : A) (terminate : bool) (wait start : Z) (name : list Z) (type : Z) : loop A -> Prop :=
| session_of_begin : forall t family buf s, 0 <= fst t -> fst t = start -> (forall i, is_byte (buf i)) ->
    begin t family name type a0 buf = Ok s -> session_of beh a0 terminate wait start name type s
| session_of_turn : forall s e ready li lo t s' sl ps, session_of beh a0 terminate wait start name type s -> 0 <= fst (e_now e) -> reading li -> timed lo ->
    turn beh terminate wait start s e ready li lo t = Ok (s', sl, ps, Again) -> session_of beh a0 terminate wait start name type s'.

(* Somebody said that the name is that of a service type or of a service *)
Definition pointed_to (name : list Z) (T : list call) : Prop := exists c, In c T /\ a_type (snd c) = QTYPE_PTR /\ a_rdname (snd c) = Some name.
(* Somebody said that name points to n *)
Definition listed_under (name n : list Z) (T : list call) : Prop := exists c, In c T /\ a_type (snd c) = QTYPE_PTR /\ a_name (snd c) = name /\ a_rdname (snd c) = Some n.
(* What was found leads to a query for n and the type: pointers, the location and the
   attributes of what a pointer leads to, the addresses of where a service is *)
Definition followed (n : list Z) (ty : Z) (T : list call) : Prop := exists c, In c T /\ there c /\ a_rdname (snd c) = Some n /\
  ((a_type (snd c) = QTYPE_PTR /\ (ty = QTYPE_PTR \/ ty = QTYPE_SRV \/ ty = QTYPE_TXT)) \/ (a_type (snd c) = QTYPE_SRV /\ (ty = QTYPE_A \/ ty = QTYPE_AAAA))).
