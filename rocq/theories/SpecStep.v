(* Notions the properties of mdnsd_step are stated with. *)
From Verif Require Import Base Wire Rec Qry Out In Api SpecDaemon Step.

(* A datagram of a size UDP can carry that parses without looking beyond its
   last byte *)
Definition self_contained (b : list Z) : Prop :=
  0 < zlen b <= MAX_PACKET_LEN /\ forall o, message_parse (mkbuffer (zlen b) (zget b)) MSG_BLOCK <> UB (OobRead o).
Definition brings (P : list Z -> Prop) (l : list (env * received)) : Prop :=
  forall x, In x l -> exists e b from, x = (e, Datagram b from) /\ P b.

(* What one datagram does when nothing but its own bytes counts *)
Definition handle (d : daemon) (e : env) (b : list Z) (from : addr) : res daemon :=
  match message_parse (mkbuffer (zlen b) (zget b)) MSG_BLOCK with
  | Ok (m, _, _) => '(d, _) <- mdnsd_in d e m from;; Ok d
  | Rej => Ok d
  | UB u => UB u
  | Hang => Hang
  end.

(* The calls mdnsd_step makes *)
Definition stepping (o : op) : Prop := match o with OIn _ _ | OOut | OSleep | OEndStep => True | _ => False end.
(* The packets that the calls of mdnsd_out in a history gave *)
Fixpoint packets (l : list event) : list (addr * list Z) :=
  match l with
  | [] => []
  | ev :: l => match ev_result ev with RMsg m n => if n =? 0 then packets l else packet_of m :: packets l | _ => packets l end
  end.
(* The time mdnsd_sleep returned *)
Fixpoint asleep (l : list event) : option tv :=
  match l with
  | [] => None
  | ev :: l => match ev_result ev with RTime t => Some t | _ => asleep l end
  end.
(* The clock is not negative and the answer callbacks keep their queries. *)
Definition plain (e : env) : Prop := 0 <= fst (e_now e) /\ forall k, e_cb e k = false.

(* What the socket gives: bytes, at times the clock allows *)
Definition reading (l : list (env * received)) : Prop := forall e x, In (e, x) l -> 0 <= fst (e_now e) /\ match x with Datagram b _ => bytes b | Failure => True end.
Definition writing (l : list (env * bool)) : Prop := forall e s, In (e, s) l -> plain e.

(* From d to d', these calls were made, with these packets, and mdnsd_sleep
   returned t. *)
Definition does (d d' : daemon) (h : list event) (ps : list (addr * list Z)) (t : option tv) : Prop :=
  history d h d' /\ (forall ev, In ev h -> stepping (ev_call ev)) /\ packets h = ps /\ asleep h = t.
(* A call of mdnsd_out overflowed the packet of its message. *)
Definition overflows (h : list event) : Prop := exists ev m n, In ev h /\ ev_result ev = RMsg m n /\ e_ovf (encode (o_calls m)) = true.
