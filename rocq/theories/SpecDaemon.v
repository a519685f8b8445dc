(* Notions the daemon properties are stated with.  They refer to the types of
   the model (what the daemon is, what a message is), not to its functions. *)
From Verif Require Import Base Hash Wire Rec Qry Out In Api.

(* ------------------------------------------------------------------ *)
(* Linked lists in memory: following the links from [first] one meets exactly
   the nodes of the list, all of them alive, and ends at NULL. *)
Inductive linked (next : nat -> option (option nat)) : option nat -> list nat -> Prop :=
| linked_end : linked next None []
| linked_node : forall x p l, next x = Some p -> linked next p l -> linked next (Some x) (x :: l).

(* The link of a record; None if the record was freed *)
Definition next_of (d : daemon) (r : nat) : option (option nat) := option_map link (hp (R d) r).

(* The records of one of the daemon's queues, in order *)
Definition queue_is (d : daemon) (q : queue) (l : list nat) : Prop := linked (next_of d) (head (R d) q) l.
Definition waits (d : daemon) (q : queue) (r : nat) : Prop := exists l, queue_is d q l /\ In r l.
(* On no queue *)
Definition idle (d : daemon) (r : nat) : Prop := forall q, ~ waits d q r.

(* The record behind a handle; a record that is published is alive. *)
Definition record (d : daemon) (r : nat) (X : mrec) : Prop := hp (R d) r = Some X.
Definition published (d : daemon) (r : nat) : Prop := In r (concat (pub (R d))).

(* The cache *)
Definition cache_holds (d : daemon) (c : cached) : Prop := In c (concat (cache (Q d))).
(* A registered query *)
Definition registered (d : daemon) (x : query) : Prop := exists q, In q (qlist (Q d)) /\ qh (Q d) q = Some x.

(* ------------------------------------------------------------------ *)
(* What a message says: its questions and resource records, in order.  The data
   of a record is what the calls that follow its header write. *)
Inductive item : Type :=
| IQuestion (name : list Z) (type class : Z)
| IRecord (sec : sect) (name : list Z) (type class ttl : Z) (data : list mcall).

Fixpoint data_calls (l : list mcall) : list mcall :=
  match l with
  | [] | MQd _ _ _ :: _ | MRr _ _ _ _ _ :: _ => []
  | c :: l => c :: data_calls l
  end.
Fixpoint items (l : list mcall) : list item :=
  match l with
  | [] => []
  | MQd n ty cl :: l => IQuestion n ty cl :: items l
  | MRr sec n ty cl ttl :: l =>
      IRecord sec n ty cl ttl (data_calls l) :: items l
  | _ :: l => items l
  end.

Definition says (m : omsg) (i : item) : Prop := In i (items (o_calls m)).

(* The record as a resource record of a message in class [cls] *)
Definition shown (sec : sect) (cls : Z) (X : mrec) : item :=
  IRecord sec (a_name (rr X)) (a_type (rr X)) cls (a_ttl (rr X)) (a_copy (rr X)).

(* ------------------------------------------------------------------ *)
(* What a caller gets who calls an iterator until it returns NULL, passing what
   it got before. *)
Inductive listing {A : Type} (next : option A -> res (option A)) : option A -> list A -> Prop :=
| listing_end : forall last, next last = Ok None -> listing next last []
| listing_more : forall last x l, next last = Ok (Some x) -> listing next (Some x) l -> listing next last (x :: l).

(* ------------------------------------------------------------------ *)
(* Histories: what any further calls, legal or not, may lead to *)
Inductive later : daemon -> daemon -> Prop :=
| later_same : forall d, later d d
| later_call : forall d d1 d2 e o x, later d d1 -> step d1 e o = Ok (d2, x) -> later d d2.

(* ------------------------------------------------------------------ *)
(* Where a packet came from *)

(* The address set with mdnsd_set_address, mdnsd_set_ipv6_address *)
Definition own (d : daemon) (from : addr) : Prop := ip from = if family from =? AF_INET6 then d_addr6 d else d_addr d.
Definition of_interface (l : list ifaddr) (from : addr) : Prop :=
  exists i, In i l /\ if_family i = (if family from =? AF_INET6 then AF_INET6 else AF_INET) /\ if_ip i = ip from.
(* The interface addresses as far as the daemon knows: it looks again when what
   it knows is five seconds old. *)
Definition snapshot (d : daemon) (e : env) : option (list ifaddr) :=
  if negb (ifs_time d =? 0) && (fst (e_now e) - ifs_time d <? 5) then ifs d
  else match e_ifs e with Some l => Some l | None => ifs d end.
(* Another host, whichever list is looked at *)
Definition foreign (d : daemon) (e : env) (from : addr) : Prop :=
  ~ own d from /\ forall l, ifs d = Some l \/ e_ifs e = Some l -> ~ of_interface l from.

(* ------------------------------------------------------------------ *)
(* Questions and answers about records *)

(* Question q is about record r *)
Definition wants (d : daemon) (q : question) (r : nat) (X : mrec) : Prop :=
  q_class q = class d /\ record d r X /\ a_name (rr X) = q_name q /\ (q_type q = a_type (rr X) \/ q_type q = QTYPE_ANY).

(* The data of a received resource is that of x.  Which member of the union is
   meant depends on the type. *)
Definition same_data (a : resource) (x : answer) : Prop :=
  (rr_type a = QTYPE_SRV -> exists n, rr_known a = KSrv (a_prio x) (a_weight x) (a_port x) n /\ a_rdname x = Some n) /\
  (is_name_type (rr_type a) = true -> exists n, rr_known a = KName n /\ a_rdname x = Some n) /\
  (rr_type a = QTYPE_A -> rr_known a = KA (a_ip x)) /\
  (rr_type a = QTYPE_AAAA -> rr_known a = KAAAA (a_ip6 x)) /\
  (rr_type a <> QTYPE_SRV -> is_name_type (rr_type a) = false -> rr_type a <> QTYPE_A -> rr_type a <> QTYPE_AAAA -> opt_bytes (rr_rdata a) = opt_bytes (a_rdata x)).
(* The same resource record but for class and TTL *)
Definition same_rr (a : resource) (x : answer) : Prop := rr_name a = a_name x /\ rr_type a = a_type x /\ same_data a x.

(* Being probed *)
Definition in_probing (X : mrec) : Prop := 1 <= unique X < 5.
(* All but the link, which is not a property of the record *)
Definition unchanged (X Y : mrec) : Prop :=
  rr X = rr Y /\ unique X = unique Y /\ modified X = modified Y /\ tries X = tries Y /\ conflict X = conflict Y /\ last_sent X = last_sent Y.

(* A record of this name and type (of any type for ANY) *)
Definition matches (n : list Z) (ty : Z) (X : mrec) : Prop := a_name (rr X) = n /\ (ty = a_type (rr X) \/ ty = QTYPE_ANY).
(* The first of them in the order of mdnsd_get_published *)
Definition first_match (d : daemon) (n : list Z) (ty : Z) (r : nat) (X : mrec) : Prop :=
  exists pre post, mdnsd_get_published (R d) n = pre ++ r :: post /\ record d r X /\ matches n ty X /\
    forall p P, In p pre -> record d p P -> ~ matches n ty P.

(* ------------------------------------------------------------------ *)
(* Histories of legal calls: what was called, in which state, what it returned
   and led to *)
Record event : Type := mkevent { ev_before : daemon; ev_env : env; ev_call : op; ev_result : out; ev_after : daemon }.
Inductive history (d0 : daemon) : list event -> daemon -> Prop :=
| history_start : history d0 [] d0
| history_call : forall l d e o x d', history d0 l d -> legal d e o -> step d e o = Ok (d', x) -> history d0 (l ++ [mkevent d e o x d']) d'.

(* mdnsd_unique returned r *)
Definition made_unique (l : list event) (r : nat) : Prop :=
  exists ev h ty ttl cb, In ev l /\ ev_call ev = OUnique h ty ttl cb /\ ev_result ev = RRec r.

(* ------------------------------------------------------------------ *)
(* The sections of a message, in the order of RFC 1035 *)
Definition section_of (i : item) : nat :=
  match i with IQuestion _ _ _ => 0 | IRecord SAn _ _ _ _ _ => 1 | IRecord SNs _ _ _ _ _ => 2 | IRecord SAr _ _ _ _ _ => 3 end.
Definition class_of (i : item) : Z := match i with IQuestion _ _ c => c | IRecord _ _ _ c _ _ => c end.

(* The resource record a response shows for record X: the top bit of the class
   tells receivers to flush their cache, and is for unique records. *)
Definition flushing (cls : Z) (X : mrec) : Z := if unique X =? 0 then cls else cls + 32768.
Definition as_answer (cls : Z) (p : nat * mrec) : item := shown SAn (flushing cls (snd p)) (snd p).
Definition as_extra (cls : Z) (p : nat * mrec) : item := shown SAr (flushing cls (snd p)) (snd p).

(* Additional records of RFC 6763 section 12: the addresses of an SRV record's
   target; the SRV and TXT records of a PTR record's target, and the addresses
   of that SRV record's target *)
Definition address_of (h : list Z) (X : mrec) : Prop := a_name (rr X) = h /\ (a_type (rr X) = QTYPE_A \/ a_type (rr X) = QTYPE_AAAA).
Definition goes_with (d : daemon) (A X : mrec) : Prop :=
  (a_type (rr A) = QTYPE_SRV /\ exists h, a_rdname (rr A) = Some h /\ address_of h X) \/
  (a_type (rr A) = QTYPE_PTR /\ exists n, a_rdname (rr A) = Some n /\
     ((a_name (rr X) = n /\ (a_type (rr X) = QTYPE_SRV \/ a_type (rr X) = QTYPE_TXT)) \/
      (exists y Y h, record d y Y /\ a_name (rr Y) = n /\ a_type (rr Y) = QTYPE_SRV /\ a_rdname (rr Y) = Some h /\ address_of h X))).

(* struct in_addr and struct in6_addr *)
Definition sized_addresses (d : daemon) : Prop := forall r X, record d r X -> zlen (a_ip (rr X)) = 4 /\ zlen (a_ip6 (rr X)) = 16.

(* The answer section of a message *)
Definition answers_of (m : omsg) : list item := filter (fun i => Nat.eqb (section_of i) 1) (items (o_calls m)).

(* ------------------------------------------------------------------ *)
(* Time in microseconds, as a difference that is not negative *)
Definition micros (t : tv) : Z := fst t * 1000000 + snd t.
Definition remaining (from until : tv) : Z := Z.max 0 (micros until - micros from).
(* The clock never went back: no call read an earlier second than the daemon
   knew of. *)
Definition forward (l : list event) : Prop := forall ev, In ev l -> fst (now (ev_before ev)) <= fst (e_now (ev_env ev)).
(* When the record, sent last at [last_sent], expires at its receivers *)
Definition expires (X : mrec) : Z := fst (last_sent X) + a_ttl (rr X).
(* A call returned the handle r; a call sets data, perhaps that of r *)
Definition made (l : list event) (r : nat) : Prop := exists ev, In ev l /\ ev_result ev = RRec r.
Definition sets (o : op) (r : nat) : Prop :=
  match o with
  | OSetRaw r' _ | OSetHost r' _ | OSetIp r' _ | OSetIp6 r' _ | OSetSrv r' _ _ _ _ => r = r'
  | OSetAddrs _ _ | OSetAddrs6 _ _ | OSetIfaddrs _ | OSetAddress _ | OSetAddress6 _ => True
  | _ => False
  end.
Definition never_set (l : list event) (r : nat) : Prop := forall ev, In ev l -> ~ sets (ev_call ev) r.
