(* Model of libmdnsd/mdnsd.c, part 5: the API as one transition function, and
   the histories of calls the properties range over. *)
From Verif Require Import Base Hash Wire Rec Qry Out In.

Inductive op : Type :=
| OShared (host : list Z) (type ttl : Z)                     (* mdnsd_shared *)
| OUnique (host : list Z) (type ttl : Z) (cb : option nat)   (* mdnsd_unique *)
| OSetRaw (r : nat) (d : list Z)                             (* mdnsd_set_raw *)
| OSetHost (r : nat) (n : list Z)                            (* mdnsd_set_host *)
| OSetIp (r : nat) (i : list Z)                              (* mdnsd_set_ip *)
| OSetIp6 (r : nat) (i : list Z)                             (* mdnsd_set_ipv6 *)
| OSetSrv (r : nat) (p w q : Z) (n : list Z)                 (* mdnsd_set_srv *)
| ODone (r : nat)                                            (* mdnsd_done *)
| OSetAddrs (host : list Z) (l : list (list Z))              (* mdnsd_set_addresses_for_host *)
| OSetAddrs6 (host : list Z) (l : list (list Z))             (* mdnsd_set_ipv6_addresses_for_host *)
| OSetIfaddrs (ifname : list Z)                              (* mdnsd_set_interface_addresses *)
| OSetAddress (i : list Z)                                   (* mdnsd_set_address *)
| OSetAddress6 (i : list Z)                                  (* mdnsd_set_ipv6_address *)
| OSetFamily (f : Z)                                         (* mdnsd_set_family *)
| ORegister (b : bool)                                       (* mdnsd_register_receive_callback *)
| OShutdown                                                  (* mdnsd_shutdown *)
| OClear                                                     (* records_clear *)
| OQuery (host : list Z) (type : Z) (answer : option nat)    (* mdnsd_query *)
| OIn (m : message) (from : addr)                            (* mdnsd_in *)
| OOut                                                       (* mdnsd_out *)
| OSleep                                                     (* mdnsd_sleep *)
| OEndStep                                                   (* the end of mdnsd_step *).

(* What the caller gets. *)
Inductive out : Type :=
| RUnit
| RRec (r : nat)
| RMsg (m : omsg) (n : Z)
| RInt (n : Z)
| RTime (t : tv).

Definition on_recs (d : daemon) (x : res recs) : res (daemon * out) :=
  s <- x;; Ok (with_R d s, RUnit).
Definition on_new (d : daemon) (x : res (recs * nat)) : res (daemon * out) :=
  '(s, r) <- x;; Ok (with_R d s, RRec r).

(* One call.  mdnsd.c:942-971 mdnsd_set_address and 978-1007
   mdnsd_set_ipv6_address return at once if the address is the same; 937-940
   mdnsd_set_family; 1105-1109 mdnsd_register_receive_callback; 1015-1035
   mdnsd_shutdown; 1824-1832 mdnsd_set_addresses_for_host and its IPv6 twin;
   1985-1987 the end of mdnsd_step. *)
Definition step (d : daemon) (e : env) (o : op) : res (daemon * out) :=
  match o with
  | OShared h ty ttl => on_new d (Ok (mdnsd_shared (R d) h ty ttl))
  | OUnique h ty ttl cb => on_new d (mdnsd_unique (R d) (now d) h ty ttl cb)
  | OSetRaw r x => on_recs d (mdnsd_set_raw (R d) (now d) r x)
  | OSetHost r n => on_recs d (mdnsd_set_host (R d) (now d) r n)
  | OSetIp r i => on_recs d (mdnsd_set_ip (R d) (now d) r i)
  | OSetIp6 r i => on_recs d (mdnsd_set_ipv6 (R d) (now d) r i)
  | OSetSrv r p w q n => on_recs d (mdnsd_set_srv (R d) (now d) r p w q n)
  | ODone r => on_recs d (mdnsd_done (R d) (now d) r)
  | OSetAddrs h l => on_recs d (update_addresses (R d) (now d) h QTYPE_A l)
  | OSetAddrs6 h l => on_recs d (update_addresses (R d) (now d) h QTYPE_AAAA l)
  | OSetIfaddrs n => on_recs d (set_interface_addresses (R d) (now d) (e_ifs e) n)
  | OSetAddress i =>
      if bytes_eqb (d_addr d) i then Ok (d, RUnit)
      else s <- set_all (R d) (now d) (concat (pub (R d))) QTYPE_A i;; Ok (with_addr (with_R d s) i (d_addr6 d), RUnit)
  | OSetAddress6 i =>
      if bytes_eqb (d_addr6 d) i then Ok (d, RUnit)
      else s <- set_all (R d) (now d) (concat (pub (R d))) QTYPE_AAAA i;; Ok (with_addr (with_R d s) (d_addr d) i, RUnit)
  | OSetFamily f => Ok (with_family d f, RUnit)
  | ORegister b => Ok (with_recv d b, RUnit)
  | OShutdown => s <- shutdown_recs (R d);; Ok (with_shutdown (with_R d s), RUnit)
  | OClear => on_recs d (records_clear (R d))
  | OQuery h ty a => q <- mdnsd_query (Q d) (fst (now d)) h ty a;; Ok (with_Q d q, RUnit)
  | OIn m from => '(d, n) <- mdnsd_in d e m from;; Ok (d, RInt n)
  | OOut => '(d, m, n) <- mdnsd_out d e;; Ok (d, RMsg m n)
  | OSleep => '(d, t) <- mdnsd_sleep d e;; Ok (d, RTime t)
  | OEndStep => Ok (with_disco d false, RUnit)
  end.

(* A record handle the caller may still use. *)
Definition live (d : daemon) (r : nat) : Prop := hp (R d) r <> None.

(* What message_parse guarantees of a resource: the union holds the member of
   its type, and data and length agree. *)
Definition wf_resource (r : resource) : Prop :=
  0 <= rr_ttl r /\
  rr_rdlength r = zlen (opt_bytes (rr_rdata r)) /\
  (rr_type r = QTYPE_SRV -> exists p w q n, rr_known r = KSrv p w q n) /\
  (is_name_type (rr_type r) = true -> exists n, rr_known r = KName n) /\
  (rr_type r = QTYPE_A -> exists i, rr_known r = KA i) /\
  (rr_type r = QTYPE_AAAA -> exists i, rr_known r = KAAAA i).
Definition wf_message (m : message) : Prop := Forall wf_resource (m_an m).

(* Nothing waits to be probed, announced or answered later.  What mdnsd_shutdown
   needs: it links every record to the queue of immediate answers without taking
   it off the queue it is on. *)
Definition settled (s : recs) : Prop := probing s = None /\ a_publish s = None /\ a_pause s = None.
(* The record is linked into none of the queues.  What withdrawing addresses needs
   of the address records, for the same reason. *)
Inductive on_list (h : heap) : option nat -> nat -> Prop :=
| on_head : forall x, on_list h (Some x) x
| on_next : forall x X r, h x = Some X -> on_list h (link X) r -> on_list h (Some x) r.
Definition unlinked (s : recs) (r : nat) : Prop := forall q, ~ on_list (hp s) (head s q) r.

(* No query that was asked three times is due.  When one is, an answer callback
   that unregisters it on the expiry of an entry pulls it from under
   mdnsd_out. *)
Definition unexhausted (d : daemon) (t : Z) : Prop :=
  forall q x, qh (Q d) q = Some x -> 0 < q_next x -> q_next x <= t -> q_tries x <> 3.

(* Calls within the contract of C17. *)
Definition legal (d : daemon) (e : env) (o : op) : Prop :=
  0 <= fst (e_now e) /\
  match o with
  | OUnique _ _ _ cb => cb <> None
  | OSetRaw r _ | OSetHost r _ | OSetIp r _ | OSetIp6 r _ | OSetSrv r _ _ _ _ | ODone r => live d r
  | OSetAddress i => is_zero i = false \/ forall r X, hp (R d) r = Some X -> a_type (rr X) = QTYPE_A -> unlinked (R d) r
  | OSetAddress6 i => is_zero i = false \/ forall r X, hp (R d) r = Some X -> a_type (rr X) = QTYPE_AAAA -> unlinked (R d) r
  | OShutdown => settled (R d)
  | OIn m _ => wf_message m
  | OOut => (forall k, e_cb e k = false) \/ unexhausted d (fst (e_now e))
  | _ => True
  end.

(* The states histories of such calls lead to. *)
Inductive reach : daemon -> Prop :=
| reach_new : forall t cls frm, 0 <= fst t -> reach (mdnsd_new t cls frm)
| reach_step : forall d e o d' x, reach d -> legal d e o -> step d e o = Ok (d', x) -> reach d'.
