(* Model of src/addr.c and of the parts of src/mdnsd.c that look after the
   interfaces: setup_iface, sys_init, the reload, the select timeout. *)
From Verif Require Import Base.

(* src/mdnsd.h:58-76, without the links and ifindex.  IPv4 addresses in host byte
   order, IPv6 addresses as 16 bytes.  Of the daemon contexts only whether they
   exist. *)
Record iface : Type := mkiface { i_unused : bool; i_changed : bool; i_name : list Z; i_addr : Z; i_addr_old : Z; i_addr6 : list Z; i_addr6_old : list Z; i_sd : Z; i_sd6 : Z; i_mdns : bool; i_mdns6 : bool; i_hostid : Z }.

(* netinet/in.h and src/mdnsd.h:85-107 *)
Definition IN_ZERONET (a : Z) : bool := a / 16777216 =? 0.
Definition IN_LINKLOCAL (a : Z) : bool := a / 65536 =? 43518.
Definition IN6_ANY : list Z := repeat 0 16.
Definition IN6_UNSPECIFIED (a : list Z) : bool := bytes_eqb a IN6_ANY.
Definition IN6_LINKLOCAL (a : list Z) : bool := (zget a 0 =? 254) && (zget a 1 / 64 =? 2).
Definition IN6_SITELOCAL (a : list Z) : bool := (zget a 0 =? 254) && (zget a 1 / 64 =? 3).
Definition IN6_UNIQUELOCAL (a : list Z) : bool := zget a 0 / 2 =? 126.

(* An element of the list of getifaddrs(3).  The flag tells whether
   getnameinfo(3) and inet_pton(3) take the address. *)
Inductive sock : Type := NoAddress | OtherFamily | Inet (a : Z) | Inet6 (a : list Z).
Record entry : Type := mkentry { n_name : list Z; n_sock : sock; n_loopback : bool; n_multicast : bool; n_up : bool; n_numeric : bool }.

(* addr.c:65-77; IFNAMSIZ is 16 *)
Fixpoint iface_find (l : list iface) (name : list Z) (i : nat) : option nat :=
  match l with
  | [] => None
  | x :: l => if bytes_eqb (i_name x) name then Some i else iface_find l name (S i)
  end.

(* addr.c:88-99 *)
Definition mark1 (i : iface) : iface :=
  mkiface true (i_changed i) (i_name i) 0 (i_addr i) IN6_ANY (i_addr6 i) (i_sd i) (i_sd6 i) (i_mdns i) (i_mdns6 i) (i_hostid i).
Definition mark (l : list iface) : list iface := map mark1 l.

(* addr.c:101-122; the count returned is not used *)
Definition sweep1 (i : iface) : iface :=
  if i_unused i then i
  else if negb (i_changed i) then i
  else if (i_addr i =? i_addr_old i) && bytes_eqb (i_addr6 i) (i_addr6_old i) then
    mkiface (i_unused i) false (i_name i) (i_addr i) (i_addr_old i) (i_addr6 i) (i_addr6_old i) (i_sd i) (i_sd6 i) (i_mdns i) (i_mdns6 i) (i_hostid i)
  else i.
Definition sweep (l : list iface) : list iface := map sweep1 l.

(* addr.c:178, 187-191 *)
Definition iface_new (name : list Z) : iface := mkiface false false (firstn 15 name) 0 0 IN6_ANY IN6_ANY (-1) (-1) false false 1.
(* addr.c:193 *)
Definition in_use (i : iface) : iface :=
  mkiface false (i_changed i) (i_name i) (i_addr i) (i_addr_old i) (i_addr6 i) (i_addr6_old i) (i_sd i) (i_sd6 i) (i_mdns i) (i_mdns6 i) (i_hostid i).
(* addr.c:199-200, 213-214 *)
Definition with_addr (i : iface) (a : Z) : iface :=
  mkiface (i_unused i) true (i_name i) a (i_addr_old i) (i_addr6 i) (i_addr6_old i) (i_sd i) (i_sd6 i) (i_mdns i) (i_mdns6 i) (i_hostid i).
Definition with_addr6 (i : iface) (a : list Z) : iface :=
  mkiface (i_unused i) true (i_name i) (i_addr i) (i_addr_old i) a (i_addr6_old i) (i_sd i) (i_sd6 i) (i_mdns i) (i_mdns6 i) (i_hostid i).
(* addr.c:196-217 *)
Definition take (i : iface) (s : sock) : iface :=
  match s with
  | Inet a =>
      if negb (i_addr i =? a) then
        if IN_ZERONET (i_addr i) || IN_LINKLOCAL (i_addr i) then with_addr i a else i
      else i
  | Inet6 a =>
      if negb (bytes_eqb (i_addr6 i) a) then
        if IN6_UNSPECIFIED (i_addr6 i) || IN6_LINKLOCAL (i_addr6 i) || (IN6_SITELOCAL (i_addr6 i) && negb (IN6_LINKLOCAL a))
           || (IN6_UNIQUELOCAL (i_addr6 i) && negb (IN6_SITELOCAL a) && negb (IN6_LINKLOCAL a)) then with_addr6 i a else i
      else i
  | _ => i
  end.

(* addr.c:143-172 *)
Definition skipped (only : option (list Z)) (e : entry) : bool :=
  match n_sock e with NoAddress => true | _ => false end || n_loopback e || negb (n_multicast e) || negb (n_up e)
  || match n_sock e with Inet _ | Inet6 _ => false | _ => true end
  || match only with Some name => negb (bytes_eqb name (n_name e)) | None => false end || negb (n_numeric e).
(* addr.c:138-222.  cur: the variable iface, as index into the list. *)
Fixpoint iface_scan (only : option (list Z)) (es : list entry) (l : list iface) (cur : option nat) : list iface :=
  match es with
  | [] => l
  | e :: es =>
      if skipped only e then iface_scan only es l cur
      else
        let cur := match cur with Some i => Some i | None => iface_find l (n_name e) 0 end in
        let '(l, i) :=
          match cur with
          | None => (l ++ [iface_new (n_name e)], length l)
          | Some i => (match nth_error l i with Some x => upd l i (in_use x) | None => l end, i)
          end in
        let l := match nth_error l i with Some x => upd l i (take x (n_sock e)) | None => l end in
        iface_scan only es l (match only with None => None | Some _ => Some i end)
  end.
(* addr.c:124-226, if getifaddrs succeeds *)
Definition iface_init (only : option (list Z)) (es : list entry) (l : list iface) : list iface := sweep (iface_scan only es (mark l) None).

(* src/mdnsd.c:166-216: None if the interface is freed.  fd, fd6: what
   multicast_socket gives; if creating the IPv4 socket fails the program exits,
   which is Rej.  conf_init is not part of this. *)
Definition setup_iface (fd fd6 : Z) (i : iface) : res (option iface) :=
  if negb (i_changed i) then Ok (Some i)
  else if i_unused i then Ok None
  else
    let sd := if i_sd i <? 0 then fd else i_sd i in
    if sd <? 0 then Rej
    else
      let sd6 := if i_sd6 i <? 0 then fd6 else i_sd6 i in
      Ok (Some (mkiface (i_unused i) false (i_name i) (i_addr i) (i_addr_old i) (i_addr6 i) (i_addr6_old i) sd sd6 true (i_mdns6 i || (0 <=? sd6)) (i_hostid i))).
(* src/mdnsd.c:244-245; fds: the sockets created *)
Fixpoint setup_all (fds : list Z -> Z * Z) (l : list iface) : res (list iface) :=
  match l with
  | [] => Ok []
  | i :: l =>
      let '(fd, fd6) := fds (i_name i) in
      o <- setup_iface fd fd6 i;;
      l <- setup_all fds l;;
      Ok (match o with Some i => i :: l | None => l end)
  end.
(* src/mdnsd.c:237-246 *)
Definition sys_init (only : option (list Z)) (es : list entry) (fds : list Z -> Z * Z) (l : list iface) : res (list iface) := setup_all fds (iface_init only es l).

(* src/mdnsd.c:88-97 mdnsd_conflict for the interface of that name; reload is
   what it was set to before *)
Definition conflict (reload : bool) (name : list Z) (l : list iface) : list iface :=
  if reload then l
  else map (fun i => if bytes_eqb (i_name i) name then mkiface (i_unused i) (i_changed i) (i_name i) (i_addr i) (i_addr_old i) (i_addr6 i) (i_addr6_old i) (i_sd i) (i_sd6 i) (i_mdns i) (i_mdns6 i) (i_hostid i + 1) else i) l.
(* src/mdnsd.c:463 after an error of the socket, and 484-485: free_iface, lines
   141-164, which uses the context of the interface *)
Definition free_iface (i : iface) : res unit := if i_mdns i then Ok tt else UB NullDeref.
Fixpoint free_all (l : list iface) : res unit := match l with [] => Ok tt | i :: l => _ <- free_iface i;; free_all l end.
(* src/mdnsd.c:425-432: records_clear and conf_init use the context *)
Fixpoint reload_all (l : list iface) : res unit := match l with [] => Ok tt | i :: l => if i_mdns i then reload_all l else UB NullDeref end.
(* src/mdnsd.c:473-475: the IPv6 socket failed *)
Definition lose6 (name : list Z) (l : list iface) : list iface :=
  map (fun i => if bytes_eqb (i_name i) name then mkiface (i_unused i) (i_changed i) (i_name i) (i_addr i) (i_addr_old i) (i_addr6 i) (i_addr6_old i) (i_sd i) (-1) (i_mdns i) (i_mdns6 i) (i_hostid i) else i) l.

(* ------------------------------------------------------------------ *)
(* struct timeval *)
Definition timeval : Type := (Z * Z)%type.
(* src/mdnsd.c:466-467 and 476-477 *)
Definition closer (tv next : timeval) : timeval := if fst next <? fst tv then next else tv.
(* src/mdnsd.c:448-480: tv as select left it, the seconds sys_timeout gives, and
   the times the contexts asked for, in order *)
Definition select_timeout (tv : timeval) (timeout : Z) (nexts : list timeval) : timeval := fold_left closer nexts (timeout, snd tv).
