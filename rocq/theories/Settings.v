(* The getters of the host's addresses, and mdnsd_flush. *)
From Verif Require Import Base Hash Wire Rec Qry Out In Api.

(* mdnsd.c:973-976 mdnsd_get_address *)
Definition mdnsd_get_address (d : daemon) : list Z := d_addr d.
(* mdnsd.c:1009-1012 mdnsd_get_ipv6_address *)
Definition mdnsd_get_ipv6_address (d : daemon) : list Z := d_addr6 d.
(* mdnsd.c:1037-1045 mdnsd_flush: the body is a comment *)
Definition mdnsd_flush (d : daemon) : daemon := d.
