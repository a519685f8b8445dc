(* What the calls say the data of a record is: vocabulary of C94. *)
From Verif Require Import Base Hash Wire Rec Qry Out In Api SpecDaemon.

(* The record of a call that made one: no data yet *)
Definition fresh_data (h : list Z) (ty ttl : Z) : answer := mkanswer h ty ttl None [0; 0; 0; 0] (repeat 0 16) None 0 0 0.

(* The record after a call.  A call to set the address of the host sets it in
   every record of the type, if it is a new address and not zero. *)
Definition given (r : nat) (a : answer) (ev : event) : answer :=
  match ev_call ev with
  | OSetRaw x d => if Nat.eqb x r then mkanswer (a_name a) (a_type a) (a_ttl a) (Some d) (a_ip a) (a_ip6 a) (a_rdname a) (a_prio a) (a_weight a) (a_port a) else a
  | OSetHost x n => if Nat.eqb x r then mkanswer (a_name a) (a_type a) (a_ttl a) (a_rdata a) (a_ip a) (a_ip6 a) (Some n) (a_prio a) (a_weight a) (a_port a) else a
  | OSetIp x i => if Nat.eqb x r then mkanswer (a_name a) (a_type a) (a_ttl a) (a_rdata a) i (a_ip6 a) (a_rdname a) (a_prio a) (a_weight a) (a_port a) else a
  | OSetIp6 x i => if Nat.eqb x r then mkanswer (a_name a) (a_type a) (a_ttl a) (a_rdata a) (a_ip a) i (a_rdname a) (a_prio a) (a_weight a) (a_port a) else a
  | OSetSrv x prio weight port n => if Nat.eqb x r then mkanswer (a_name a) (a_type a) (a_ttl a) (a_rdata a) (a_ip a) (a_ip6 a) (Some n) prio weight port else a
  | OSetAddress i =>
      if (a_type a =? 1) && negb (forallb (fun c => c =? 0) i) && negb (bytes_eqb (d_addr (ev_before ev)) i)
      then mkanswer (a_name a) (a_type a) (a_ttl a) (a_rdata a) i (a_ip6 a) (a_rdname a) (a_prio a) (a_weight a) (a_port a) else a
  | OSetAddress6 i =>
      if (a_type a =? 28) && negb (forallb (fun c => c =? 0) i) && negb (bytes_eqb (d_addr6 (ev_before ev)) i)
      then mkanswer (a_name a) (a_type a) (a_ttl a) (a_rdata a) (a_ip a) i (a_rdname a) (a_prio a) (a_weight a) (a_port a) else a
  | _ => a
  end.

(* Equal up to the TTL, which may have been set to 0 to withdraw the record *)
Definition same_or_withdrawn (a b : answer) : Prop :=
  a_name a = a_name b /\ a_type a = a_type b /\ a_rdata a = a_rdata b /\ a_ip a = a_ip b /\ a_ip6 a = a_ip6 b /\ a_rdname a = a_rdname b /\
  a_prio a = a_prio b /\ a_weight a = a_weight b /\ a_port a = a_port b /\ (a_ttl a = a_ttl b \/ a_ttl a = 0).

(* The call of the event made record r with this name, type and TTL. *)
Definition makes (ev : event) (r : nat) (h : list Z) (ty ttl : Z) : Prop :=
  ev_result ev = RRec r /\ (ev_call ev = OShared h ty ttl \/ exists cb, ev_call ev = OUnique h ty ttl cb).

(* What a message holds for a record whose data was set by this call *)
Definition said (o : op) : list mcall :=
  match o with
  | OSetRaw _ d => [MRaw d]
  | OSetHost _ n => [MName n]
  | OSetIp _ i => [MIp4 i]
  | OSetIp6 _ i => [MIp6 i]
  | OSetSrv _ prio weight port n => [MSrv prio weight port (Some n)]
  | _ => []
  end.
(* The call sets data of record r that a record of type ty can have: a service
   for SRV, an address other than zero for A and AAAA. *)
Definition suits (o : op) (r : nat) (ty : Z) : Prop :=
  match o with
  | OSetRaw x _ | OSetHost x _ => x = r /\ ty <> 33
  | OSetIp x i => x = r /\ ty = 1 /\ forallb (fun c => c =? 0) i = false
  | OSetIp6 x i => x = r /\ ty = 28 /\ forallb (fun c => c =? 0) i = false
  | OSetSrv x _ _ _ _ => x = r /\ ty = 33
  | _ => False
  end.
(* The call may set data of record r, which is of type ty. *)
Definition resets (o : op) (r : nat) (ty : Z) : Prop :=
  match o with
  | OSetRaw x _ | OSetHost x _ | OSetIp x _ | OSetIp6 x _ | OSetSrv x _ _ _ _ => x = r
  | OSetAddress _ => ty = 1
  | OSetAddress6 _ => ty = 28
  | _ => False
  end.
Definition same_setter (o o' : op) : Prop :=
  match o, o' with
  | OSetRaw _ _, OSetRaw _ _ | OSetHost _ _, OSetHost _ _ | OSetIp _ _, OSetIp _ _ | OSetIp6 _ _, OSetIp6 _ _ | OSetSrv _ _ _ _ _, OSetSrv _ _ _ _ _ => True
  | OSetAddress _, OSetIp _ _ | OSetAddress6 _, OSetIp6 _ _ => True
  | _, _ => False
  end.
