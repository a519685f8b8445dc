(* Two hosts on one network that hear each other: notions for C108, C109 and C31. *)
From Verif Require Import Base Wire Rec Qry Out In Api SpecDaemon Step.

(* Calls other than those that send and receive *)
Definition by_itself (o : op) : Prop := match o with OOut | OIn _ _ => False | _ => True end.

(* Whatever one host sends, the other hears in the same second, and nothing
   else.  at1 and at2: the addresses they send from *)
Inductive together (at1 at2 : addr) : daemon -> daemon -> Prop :=
| tg_new : forall t1 t2 cls frm1 frm2, 0 <= fst t1 -> 0 <= fst t2 -> together at1 at2 (mdnsd_new t1 cls frm1) (mdnsd_new t2 cls frm2)
| tg_call1 : forall a b e o a' x, together at1 at2 a b -> by_itself o -> legal a e o -> step a e o = Ok (a', x) -> together at1 at2 a' b
| tg_call2 : forall a b e o b' x, together at1 at2 a b -> by_itself o -> legal b e o -> step b e o = Ok (b', x) -> together at1 at2 a b'
| tg_send1 : forall a b e a' m n e' b', together at1 at2 a b -> legal a e OOut -> step a e OOut = Ok (a', RMsg m n) -> fst (e_now e') = fst (e_now e) ->
    process_in b (if n =? 0 then [] else [(e', Datagram (snd (packet_of m)) at1)]) = Ok (b', 0) -> together at1 at2 a' b'
| tg_send2 : forall a b e b' m n e' a', together at1 at2 a b -> legal b e OOut -> step b e OOut = Ok (b', RMsg m n) -> fst (e_now e') = fst (e_now e) ->
    process_in a (if n =? 0 then [] else [(e', Datagram (snd (packet_of m)) at2)]) = Ok (a', 0) -> together at1 at2 a' b'.
