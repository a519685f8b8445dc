(* Vocabulary of the size bounds (C35, C66). *)
From Verif Require Import Base Hash Wire Rec Qry Out In Api SpecDaemon.

(* The addresses a call gives have the size of struct in_addr and struct in6_addr,
   as they have in C. *)
Definition sized_call (e : env) (o : op) : Prop :=
  match o with
  | OSetIp _ i | OSetAddress i => zlen i = 4
  | OSetIp6 _ i | OSetAddress6 i => zlen i = 16
  | OSetAddrs _ l => Forall (fun i => zlen i = 4) l
  | OSetAddrs6 _ l => Forall (fun i => zlen i = 16) l
  | OSetIfaddrs _ => forall l i, e_ifs e = Some l -> In i l -> (if_family i = AF_INET -> zlen (if_ip i) = 4) /\ (if_family i = AF_INET6 -> zlen (if_ip i) = 16)
  | OIn m from => zlen (ip from) = (if family from =? AF_INET6 then 16 else 4) /\
      forall r i, In r (m_an m) -> (rr_known r = KA i -> zlen i = 4) /\ (rr_known r = KAAAA i -> zlen i = 16)
  | _ => True
  end.
Definition sized_calls (l : list event) : Prop := Forall (fun ev => sized_call (ev_env ev) (ev_call ev)) l.

(* Enough for a question and a record with this data *)
Definition length_of (o : option (list Z)) : Z := match o with Some s => zlen s | None => 0 end.
Definition room_of (d : daemon) (r : nat) : Z := match hp (R d) r with Some X => 560 + length_of (a_rdata (rr X)) + length_of (a_rdname (rr X)) | None => 0 end.
Definition room_for (d : daemon) (P : list nat) : Z := fold_right Z.add 0 (map (room_of d) P).
(* The records that are probed for or that somebody was promised an answer with *)
Definition covers (d : daemon) (P : list nat) : Prop := forall r, waits d Probing r \/ (exists u, In u (uans (R d)) /\ u_r u = r) -> In r P.
Definition query_count (d : daemon) : Z := zlen (qlist (Q d)).
