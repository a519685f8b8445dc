(* Loading the .service files again, in place, after the addresses changed. *)
From Verif Require Import Base Wire Rec Qry Out In Api Conf SpecDaemon SpecAddr SpecLoad.

(* The services l are served with the addresses of the interface: each has all
   its records, every record belongs to one of them or is an address of their
   hosts that is being withdrawn, and none but addresses is there twice *)
Definition is_addr (a : answer) : Prop := a_type a = QTYPE_A \/ a_type a = QTYPE_AAAA.
Record served (d : daemon) (ifs : list ifaddr) (ifname hostname : list Z) (l : list conf_srec) : Prop := mkserved {
  sv_complete : forall s, In s l -> complete d ifs ifname hostname s;
  sv_sound : forall r X, record d r X -> exists s, In s l /\ (part_of ifs ifname hostname s (rr X) \/ (is_addr (rr X) /\ a_name (rr X) = target hostname s /\ withdrawn X));
  sv_double : no_double d
}.

(* The address of a record is one of the interface *)
Definition has_place (ifs : list ifaddr) (ifname : list Z) (a : answer) : Prop :=
  (a_type a = QTYPE_A /\ on_interface ifs ifname AF_INET (a_ip a)) \/ (a_type a = QTYPE_AAAA /\ on_interface ifs ifname AF_INET6 (a_ip6 a)).
(* No address that is on the interface is being withdrawn *)
Definition none_leaving (d : daemon) (ifs : list ifaddr) (ifname : list Z) : Prop := forall r X, record d r X -> has_place ifs ifname (rr X) -> ~ withdrawn X.

(* The same record: of the same state of probing, with the same content, but for
   the order of the strings of a TXT *)
Definition same_record (X Y : mrec) : Prop :=
  unique Y = unique X /\ (a_type (rr X) <> QTYPE_TXT -> rr Y = rr X) /\
  a_name (rr Y) = a_name (rr X) /\ a_type (rr Y) = a_type (rr X) /\ a_ttl (rr Y) = a_ttl (rr X) /\ a_rdname (rr Y) = a_rdname (rr X).
