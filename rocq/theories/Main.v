(* Model of the main program of the daemon as far as it concerns descriptors:
   src/mcsock.c, multicast_socket, free_iface, setup_iface, sys_init and the
   main loop of src/mdnsd.c, netlink_init and netlink_exit of src/netlink.c.
   What the program asks of the kernel is recorded. *)
From Verif Require Import Base Iface.

(* The options of setsockopt(2) that are used.  An interface is told by its name;
   the code uses its index, looked up when it was first seen. *)
Inductive sockopt : Type :=
| ReusePort | ReuseAddr | RcvBuf | McLoop | McAllOff | McTtl (t : Z) | UniTtl (t : Z) | McIf (name : list Z) | BindDev (name : list Z) | Join (group : list Z) (name : list Z) | V6Only.

(* Requests to the kernel.  AIo: mdnsd_step with this socket, whose result is 0,
   or 1 or 2 if reading or writing failed.  ASelect: the descriptors waited for.
   ANetlink: netlink_read. *)
Inductive request : Type :=
| ASocket (family : Z) | AOption (fd : Z) (o : sockopt) | ABind (fd : Z) (port : Z) | AClose (fd : Z) | AIo (fd : Z) | ASelect (fds : list Z) | ANetlink (fd : Z).
Definition trace : Type := list (request * Z).
(* The kernel: any function of all that was asked before *)
Definition kernel : Type := trace -> request -> Z.

(* How a part of the program goes on: further, by exit(3) or return from main,
   or by using a NULL context or an fd_set out of bounds *)
Inductive crash : Type := NullContext | FdSet.
Inductive fate (A : Type) : Type := Go (tr : trace) (a : A) | Quit (tr : trace) (code : Z) | Crash (tr : trace) (c : crash).
Arguments Go {A} tr a.
Arguments Quit {A} tr code.
Arguments Crash {A} tr c.
Definition so_far {A : Type} (f : fate A) : trace := match f with Go tr _ | Quit tr _ | Crash tr _ => tr end.
Definition next {A B : Type} (f : fate A) (g : trace -> A -> fate B) : fate B :=
  match f with Go tr a => g tr a | Quit tr c => Quit tr c | Crash tr c => Crash tr c end.

Definition FAM4 : Z := 2.    (* AF_INET *)
Definition FAM6 : Z := 10.   (* AF_INET6 *)
Definition FAMNL : Z := 16.  (* AF_NETLINK *)
Definition PORT : Z := 5353.
Definition GROUP4 : list Z := [224; 0; 0; 251].
Definition GROUP6 : list Z := [255; 2; 0; 0; 0; 0; 0; 0; 0; 0; 0; 0; 0; 0; 0; 251].

(* Options are set in order; failures are logged only *)
Fixpoint setopts (k : kernel) (tr : trace) (fd : Z) (l : list sockopt) : trace :=
  match l with [] => tr | o :: l => setopts k (tr ++ [(AOption fd o, k tr (AOption fd o))]) fd l end.

(* src/mcsock.c:105-156: the options of mc_socket for an interface, with
   SO_REUSEPORT, IP_MULTICAST_ALL, imr_ifindex and SO_BINDTODEVICE as on Linux.
   getsockopt of the buffer's size is taken to succeed. *)
Definition options4 (ttl : Z) (name : list Z) : list sockopt :=
  [ReusePort; ReuseAddr; RcvBuf; McLoop; McAllOff; McTtl ttl; UniTtl 255; McIf name; BindDev name; Join GROUP4 name].
(* src/mcsock.c:203-240: those of mc_socket6 *)
Definition options6 (ttl : Z) (name : list Z) : list sockopt :=
  [ReusePort; ReuseAddr; V6Only; McLoop; McTtl ttl; UniTtl 255; McIf name; BindDev name; Join GROUP6 name].

(* src/mcsock.c:71-172, 188-256, 175-182, 259-265 and src/mdnsd.c:67-83 *)
Definition multicast_socket (k : kernel) (tr : trace) (name : list Z) (ttl : Z) (family : Z) : trace * Z :=
  let ttl := if ttl =? 0 then 1 else ttl in
  let sd := k tr (ASocket family) in
  let tr := tr ++ [(ASocket family, sd)] in
  if sd <? 0 then (tr, -1)
  else
    let tr := setopts k tr sd (if family =? FAM6 then options6 ttl name else options4 ttl name) in
    let r := k tr (ABind sd PORT) in
    let tr := tr ++ [(ABind sd PORT, r)] in
    if negb (r =? 0) then (tr ++ [(AClose sd, k tr (AClose sd))], -1)
    else (tr, sd).

(* src/netlink.c:49-69; bind has no port *)
Definition netlink_init (k : kernel) (tr : trace) : trace * Z :=
  let sd := k tr (ASocket FAMNL) in
  let tr := tr ++ [(ASocket FAMNL, sd)] in
  if sd <? 0 then (tr, -1)
  else
    let r := k tr (ABind sd 0) in
    let tr := tr ++ [(ABind sd 0, r)] in
    if r <? 0 then (tr ++ [(AClose sd, k tr (AClose sd))], -1)
    else (tr, sd).
(* src/netlink.c:122-126 *)
Definition close_if (k : kernel) (tr : trace) (sd : Z) : trace := if 0 <=? sd then tr ++ [(AClose sd, k tr (AClose sd))] else tr.
Definition io_if (k : kernel) (tr : trace) (sd : Z) : trace := if 0 <=? sd then tr ++ [(AIo sd, k tr (AIo sd))] else tr.

(* src/mdnsd.c:141-164.  The result of the last mdnsd_step is ignored. *)
Definition free_iface (k : kernel) (tr : trace) (i : iface) : fate unit :=
  if negb (i_mdns i) then Crash tr NullContext
  else
    let tr := io_if k tr (i_sd i) in
    let tr := close_if k tr (i_sd i) in
    if i_mdns6 i then Go (close_if k (io_if k tr (i_sd6 i)) (i_sd6 i)) tt else Go tr tt.

(* src/mdnsd.c:166-216.  None: freed.  conf_init and creating contexts are
   without effect on descriptors. *)
Definition setup_iface (k : kernel) (tr : trace) (ttl : Z) (i : iface) : fate (option iface) :=
  if negb (i_changed i) then Go tr (Some i)
  else if i_unused i then next (free_iface k tr i) (fun tr _ => Go tr None)
  else
    let '(tr, sd) := if i_sd i <? 0 then multicast_socket k tr (i_name i) ttl FAM4 else (tr, i_sd i) in
    if sd <? 0 then Quit tr 1
    else
      let '(tr, sd6) := if i_sd6 i <? 0 then multicast_socket k tr (i_name i) ttl FAM6 else (tr, i_sd6 i) in
      Go tr (Some (mkiface (i_unused i) false (i_name i) (i_addr i) (i_addr_old i) (i_addr6 i) (i_addr6_old i) sd sd6 true (i_mdns6 i || (0 <=? sd6)) (i_hostid i))).

Definition cons_opt {A : Type} (o : option A) (l : list A) : list A := match o with Some a => a :: l | None => l end.
(* src/mdnsd.c:244-245 *)
Fixpoint setup_all (k : kernel) (tr : trace) (ttl : Z) (l : list iface) : fate (list iface) :=
  match l with
  | [] => Go tr []
  | i :: l => next (setup_iface k tr ttl i) (fun tr o => next (setup_all k tr ttl l) (fun tr l => Go tr (cons_opt o l)))
  end.
(* src/mdnsd.c:237-246; es: what getifaddrs gives, None if it fails *)
Definition sys_init (k : kernel) (tr : trace) (only : option (list Z)) (ttl : Z) (es : option (list entry)) (l : list iface) : fate (list iface) :=
  setup_all k tr ttl (match es with Some es => iface_init only es l | None => l end).

Definition lost6 (i : iface) : iface :=
  mkiface (i_unused i) (i_changed i) (i_name i) (i_addr i) (i_addr_old i) (i_addr6 i) (i_addr6_old i) (i_sd i) (-1) (i_mdns i) (i_mdns6 i) (i_hostid i).
(* src/mdnsd.c:449-481, one interface.  Both contexts' mdnsd_step; the first uses
   the context without a check. *)
Definition serve1 (k : kernel) (tr : trace) (i : iface) : fate (option iface) :=
  if i_unused i || (i_sd i <? 0) then Go tr (Some i)
  else if negb (i_mdns i) then Crash tr NullContext
  else
    let rc := k tr (AIo (i_sd i)) in
    let tr := tr ++ [(AIo (i_sd i), rc)] in
    if negb (rc =? 0) then next (free_iface k tr i) (fun tr _ => Go tr None)
    else if i_mdns6 i && (0 <=? i_sd6 i) then
      let rc := k tr (AIo (i_sd6 i)) in
      let tr := tr ++ [(AIo (i_sd6 i), rc)] in
      if negb (rc =? 0) then Go (tr ++ [(AClose (i_sd6 i), k tr (AClose (i_sd6 i)))]) (Some (lost6 i))
      else Go tr (Some i)
    else Go tr (Some i).
Fixpoint serve (k : kernel) (tr : trace) (l : list iface) : fate (list iface) :=
  match l with
  | [] => Go tr []
  | i :: l => next (serve1 k tr i) (fun tr o => next (serve k tr l) (fun tr l => Go tr (cons_opt o l)))
  end.

(* src/mdnsd.c:392-412: the descriptors to wait for, netlink first *)
Definition watched (nl : Z) (l : list iface) : list Z :=
  (if 0 <=? nl then [nl] else []) ++
  concat (map (fun i => if (i_sd i <? 0) || i_unused i then [] else i_sd i :: (if 0 <=? i_sd6 i then [i_sd6 i] else [])) l).
(* sys/select.h *)
Definition FD_SETSIZE : Z := 1024.

(* src/mdnsd.c:425-432: every context is used; records_clear and conf_init *)
Fixpoint contexts (tr : trace) (l : list iface) : fate unit :=
  match l with [] => Go tr tt | i :: l => if i_mdns i then contexts tr l else Crash tr NullContext end.

(* What happens during one turn of the loop: select was interrupted; running and
   reload after select; netlink is readable; the poll interval is over; what
   getifaddrs gives in the reload, after netlink_read and at the poll. *)
Record turn : Type := mkturn { t_eintr : bool; t_running : bool; t_reload : bool; t_nlready : bool; t_poll : bool; t_es1 : option (list entry); t_es2 : option (list entry); t_es3 : option (list entry) }.

(* src/mdnsd.c:389-481, one turn; None: the loop was left by break *)
Definition loop_turn (k : kernel) (tr : trace) (only : option (list Z)) (ttl nl : Z) (t : turn) (l : list iface) : fate (option (list iface)) :=
  let w := watched nl l in
  if existsb (fun fd => FD_SETSIZE <=? fd) w then Crash tr FdSet
  else
    let tr := tr ++ [(ASelect w, k tr (ASelect w))] in
    if t_eintr t || t_reload t then
      if negb (t_running t) then Go tr None
      else if t_reload t then
        next (sys_init k tr only ttl (t_es1 t) l) (fun tr l => next (contexts tr l) (fun tr _ => Go tr (Some l)))
      else Go tr (Some l)
    else
      let nlread := (0 <=? nl) && t_nlready t in
      let rc := k tr (ANetlink nl) in
      let tr := if nlread then tr ++ [(ANetlink nl, rc)] else tr in
      next (if nlread && (0 <? rc) then sys_init k tr only ttl (t_es2 t) l else Go tr l) (fun tr l =>
      next (if t_poll t then sys_init k tr only ttl (t_es3 t) l else Go tr l) (fun tr l =>
      next (serve k tr l) (fun tr l => Go tr (Some l)))).

(* src/mdnsd.c:484-485 *)
Fixpoint free_all (k : kernel) (tr : trace) (l : list iface) : fate unit :=
  match l with [] => Go tr tt | i :: l => next (free_iface k tr i) (fun tr _ => free_all k tr l) end.

(* src/mdnsd.c:388-490 for these turns.  After the last one a signal handler has
   set running to 0, unless the loop was left by break. *)
Fixpoint main_loop (k : kernel) (tr : trace) (only : option (list Z)) (ttl nl : Z) (ts : list turn) (l : list iface) : fate (list iface) :=
  match ts with
  | [] => Go tr l
  | t :: ts => next (loop_turn k tr only ttl nl t l) (fun tr o => match o with None => Go tr l | Some l => main_loop k tr only ttl nl ts l end)
  end.
(* src/mdnsd.c:384-490 after the options are parsed; ttl is given to
   multicast_socket as an unsigned char *)
Definition main (k : kernel) (only : option (list Z)) (ttl : Z) (es0 : option (list entry)) (ts : list turn) : fate unit :=
  next (sys_init k [] only (ttl mod 256) es0 []) (fun tr l =>
  let '(tr, nl) := netlink_init k tr in
  next (main_loop k tr only (ttl mod 256) nl ts l) (fun tr l =>
  next (free_all k tr l) (fun tr _ => Quit (close_if k tr nl) 0))).
