(* Notions the address properties are stated with. *)
From Verif Require Import Base Wire Rec Qry Out In Api SpecDaemon.

(* An A or AAAA record of a host, and its address *)
Definition address (ty : Z) (X : mrec) : list Z := if ty =? QTYPE_A then a_ip (rr X) else a_ip6 (rr X).
Definition of_host (d : daemon) (host : list Z) (ty : Z) (r : nat) (X : mrec) : Prop := record d r X /\ a_name (rr X) = host /\ a_type (rr X) = ty.
(* Withdrawn: its goodbye has yet to be sent *)
Definition withdrawn (X : mrec) : Prop := a_ttl (rr X) = 0.
Definition none_withdrawn (d : daemon) (host : list Z) (ty : Z) : Prop := forall r X, of_host d host ty r X -> ~ withdrawn X.
Definition offers (d : daemon) (host : list Z) (ty : Z) (ip : list Z) : Prop := exists r X, of_host d host ty r X /\ ~ withdrawn X /\ address ty X = ip.
(* No address twice *)
Definition once (d : daemon) (host : list Z) (ty : Z) : Prop :=
  forall r X r' X', of_host d host ty r X -> of_host d host ty r' X' -> ~ withdrawn X -> ~ withdrawn X' -> address ty X = address ty X' -> r = r'.

(* The calls: mdnsd_set_addresses_for_host and its IPv6 twin *)
Definition sets_addresses (o : op) (host : list Z) (ty : Z) (l : list (list Z)) : Prop :=
  (o = OSetAddrs host l /\ ty = QTYPE_A) \/ (o = OSetAddrs6 host l /\ ty = QTYPE_AAAA).

(* An address of the interface *)
Definition on_interface (l : list ifaddr) (ifname : list Z) (family : Z) (ip : list Z) : Prop :=
  exists i, In i l /\ if_name i = ifname /\ if_family i = family /\ if_ip i = ip.
