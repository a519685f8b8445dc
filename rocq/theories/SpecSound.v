(* When what the .service files publish can be told to other hosts: vocabulary of
   C114. *)
From Coq Require Import String.
From Verif Require Import Base SpecDns SpecMap SpecTxt Hash Wire Rec Qry Out In Api Conf SpecConf SpecDaemon SpecAddr SpecLoad SpecHear.
Open Scope list_scope.

Definition local_label : list Z := ascii_text "local".
(* A name that DNS can carry: labels of 1 to 63 bytes, up to 255 bytes in all.
   It ends in "local", a label it has nowhere else. *)
Definition good_name (n : list Z) : Prop := exists l, n = dotted l /\ legal_name l /\ ends_only_in local_label l.
Definition good_ip (size : Z) (ip : list Z) : Prop := len ip = size /\ byte_list ip /\ exists c, In c ip /\ c <> 0.
(* The names of the services, their texts and the addresses of the interface are
   such that DNS can carry them. *)
Record carried (ifs : list ifaddr) (ifname hostname : list Z) (l : list conf_srec) : Prop := mkcarried {
  ca_names : forall s n, In s l -> In n (names_of hostname s) -> good_name n;
  ca_lines : forall s t, In s l -> In t (s_txt s) -> byte_list t;
  ca_text : forall s, In s l -> sum (map (fun t => len t + 1) (s_txt s)) < 65535;
  ca_ip4 : forall ip, on_interface ifs ifname AF_INET ip -> good_ip 4 ip;
  ca_ip6 : forall ip, on_interface ifs ifname AF_INET6 ip -> good_ip 16 ip
}.
(* A call that neither makes records nor sets the data of one *)
Definition leaves_data (o : op) : Prop :=
  match o with
  | OShared _ _ _ | OUnique _ _ _ _ | OSetRaw _ _ | OSetHost _ _ | OSetIp _ _ | OSetIp6 _ _ | OSetSrv _ _ _ _ _
  | OSetAddrs _ _ | OSetAddrs6 _ _ | OSetIfaddrs _ | OSetAddress _ | OSetAddress6 _ => False
  | _ => True
  end.
Definition serving (h : list event) : Prop := Forall (fun ev => leaves_data (ev_call ev)) h.
