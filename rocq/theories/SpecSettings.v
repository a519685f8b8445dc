(* The address of the host: vocabulary of C118. *)
From Verif Require Import Base Hash Wire Rec Qry Out In Api SpecDaemon.

(* What the calls so far set it to *)
Definition address_set (l : list event) : list Z := fold_left (fun a ev => match ev_call ev with OSetAddress i => i | _ => a end) l [0; 0; 0; 0].
Definition address6_set (l : list event) : list Z := fold_left (fun a ev => match ev_call ev with OSetAddress6 i => i | _ => a end) l (repeat 0 16).

(* A record with another address, or withdrawn *)
Definition with_ip (i : list Z) (a : answer) : answer := mkanswer (a_name a) (a_type a) (a_ttl a) (a_rdata a) i (a_ip6 a) (a_rdname a) (a_prio a) (a_weight a) (a_port a).
Definition with_ip6 (i : list Z) (a : answer) : answer := mkanswer (a_name a) (a_type a) (a_ttl a) (a_rdata a) (a_ip a) i (a_rdname a) (a_prio a) (a_weight a) (a_port a).
Definition withdrawn_rr (a : answer) : answer := mkanswer (a_name a) (a_type a) 0 (a_rdata a) (a_ip a) (a_ip6 a) (a_rdname a) (a_prio a) (a_weight a) (a_port a).

(* The two daemons have the same records, but for what f makes of those of the
   type. *)
Definition rewritten (d d' : daemon) (ty : Z) (f : answer -> answer) : Prop :=
  (forall r X, record d r X -> exists Y, record d' r Y /\ rr Y = if a_type (rr X) =? ty then f (rr X) else rr X) /\
  (forall r Y, record d' r Y -> exists X, record d r X).
Definition all_zero (i : list Z) : Prop := forall b, In b i -> b = 0.
