(* Who said what callbacks are told: vocabulary of C100. *)
From Verif Require Import Base Hash Wire Rec Qry Out In Api SpecDaemon SpecCache.

(* x says what the record a from this sender said: with all data of a, and for the
   records that name something (PTR, NS, CNAME) with the address of the sender. *)
Definition said_by (a : resource) (from : addr) (x : answer) : Prop :=
  same_rr a x /\ a_rdata x = (if rr_rdlength a =? 0 then None else rr_rdata a) /\
  (is_name_type (rr_type a) = true -> family from = AF_INET6 -> a_ip6 x = ip from) /\
  (is_name_type (rr_type a) = true -> family from <> AF_INET6 -> a_ip x = ip from).
(* A response from this sender, not from this host, was received with it. *)
Definition heard_from (l : list event) (x : answer) : Prop :=
  exists ev m from a, In ev l /\ ev_call ev = OIn m from /\ h_qr (m_header m) <> 0 /\ In a (m_an m) /\ rr_ttl a <> 0 /\ said_by a from x /\
    ~ own (ev_before ev) from /\ (forall i, snapshot (ev_before ev) (ev_env ev) = Some i -> ~ of_interface i from).
