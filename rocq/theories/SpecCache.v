(* Notions the properties of the cache and of queries are stated with. *)
From Verif Require Import Base Hash Wire Rec Qry Out In Api SpecDaemon.

(* The same resource record but for the TTL.  Which member of the union is meant
   depends on the type. *)
Definition same_content (x y : answer) : Prop :=
  a_name x = a_name y /\ a_type x = a_type y /\
  (a_type x = QTYPE_SRV -> a_rdname x = a_rdname y /\ a_prio x = a_prio y /\ a_weight x = a_weight y /\ a_port x = a_port y) /\
  (is_name_type (a_type x) = true -> a_rdname x = a_rdname y) /\
  (a_type x = QTYPE_A -> a_ip x = a_ip y) /\
  (a_type x = QTYPE_AAAA -> a_ip6 x = a_ip6 y) /\
  (a_type x <> QTYPE_SRV -> is_name_type (a_type x) = false -> a_type x <> QTYPE_A -> a_type x <> QTYPE_AAAA -> opt_bytes (a_rdata x) = opt_bytes (a_rdata y)).

(* Some packet of the history brought the entry: a response, not from this
   host, with this record among its answers. *)
Definition brought (l : list event) (x : answer) : Prop :=
  exists ev m from a, In ev l /\ ev_call ev = OIn m from /\ h_qr (m_header m) <> 0 /\ In a (m_an m) /\ rr_ttl a <> 0 /\ same_rr a x /\
    a_ttl x = fst (e_now (ev_env ev)) + rr_ttl a / 2 + 8 /\
    ~ own (ev_before ev) from /\ (forall i, snapshot (ev_before ev) (ev_env ev) = Some i -> ~ of_interface i from).

(* The answer makes the daemon forget x: it says goodbye, or asks to flush what
   is known of its name and type. *)
Definition says_bye (a : resource) (x : answer) : Prop := rr_ttl a = 0 /\ same_rr a x.
Definition flushes (d : daemon) (a : resource) (x : answer) : Prop :=
  rr_class a = class d + 32768 /\ rr_name a = a_name x /\ (rr_type a = a_type x \/ rr_type a = QTYPE_ANY).

(* A query for exactly this record's name and type *)
Definition is_for (y : query) (n : list Z) (ty : Z) : Prop := q_nm y = n /\ q_ty y = ty.

(* The messages of the history that ask the question, and when *)
Definition is_question (n : list Z) (ty : Z) (i : item) : bool :=
  match i with IQuestion n' ty' _ => bytes_eqb n n' && (ty =? ty') | _ => false end.
Definition asks_for (n : list Z) (ty : Z) (ev : event) : bool :=
  match ev_call ev, ev_result ev with
  | OOut, RMsg m _ => negb (o_qr m) && existsb (is_question n ty) (items (o_calls m))
  | _, _ => false
  end.
Definition askings (n : list Z) (ty : Z) (l : list event) : list Z := map (fun ev => fst (e_now (ev_env ev))) (filter (asks_for n ty) l).

(* Three times at most, at least one and two seconds apart *)
Definition thrice (l : list Z) : Prop :=
  match l with
  | [] | [_] => True
  | [t1; t2] => t1 + 1 <= t2
  | [t1; t2; t3] => t1 + 1 <= t2 /\ t2 + 2 <= t3
  | _ => False
  end.

(* Every query was for a type, not for ANY *)
Definition asks_exact (l : list event) : Prop := forall ev n cb, In ev l -> ev_call ev <> OQuery n QTYPE_ANY cb.
(* The calls of answer callbacks made by an event: number of the callback, and
   what it was told *)
Definition calls_made (ev : event) (T : list (nat * answer)) : Prop := told (Q (ev_after ev)) = told (Q (ev_before ev)) ++ T.
(* The calls about records that came, not about records that went *)
Definition news (T : list (nat * answer)) : list (nat * answer) := filter (fun p => negb (a_ttl (snd p) =? 0)) T.
(* No record of the name is being probed for *)
Definition not_probing (d : daemon) (n : list Z) : Prop := forall r X, record d r X -> a_name (rr X) = n -> ~ waits d Probing r.
