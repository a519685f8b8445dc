(* Model of the beginning of main() of src/mquery.c: options, interface, socket
   and first query.  getopt is the C library's: what it returns is the input. *)
From Verif Require Import Base Lib Log Wire Rec Qry Out In Api Reent Step Mquery Iface Main.

(* What getopt returns, with its argument.  QBad: '?', given for an option that is
   not known or whose argument is missing, and for "-?" itself *)
Inductive mqopt : Type :=
| QHelp | QBad | QSix | QDevices | QTerminate | QDetail (s : list Z) | QIface (s : list Z) | QLevel (s : list Z) | QSimple | QType (s : list Z) | QVersion | QWait (s : list Z).

(* mquery.c:50-54, 517-525 the variables the options set; -6 and -i are there *)
Record mqconf : Type := mkmqconf { m_six : bool; m_devices : bool; m_terminate : bool; m_detail : option (list Z); m_iface : option (list Z); m_simple : bool; m_type : Z; m_wait : Z; m_log : logger }.
Definition mqconf0 : mqconf := mkmqconf false false false None None false QTYPE_PTR 0 log_new.
Inductive mqreading : Type := MGoing (c : mqconf) | MExits (code : Z).

(* mquery.c:535-588 one turn of the loop over the options *)
Definition mq_take (c : mqconf) (o : mqopt) : mqreading :=
  let '(mkmqconf six dev term det ifn sim ty wt lg) := c in
  match o with
  | QHelp | QBad => MExits 0
  | QSix => MGoing (mkmqconf true dev term det ifn sim ty wt lg)
  | QDevices => MGoing (mkmqconf six true term det ifn sim ty wt lg)
  | QTerminate => MGoing (mkmqconf six dev true det ifn sim ty wt lg)
  | QDetail s => MGoing (mkmqconf six true term (Some s) ifn sim ty wt lg)
  | QIface s => MGoing (mkmqconf six dev term det (Some s) sim ty wt lg)
  | QLevel s => let '(lg, lvl, _) := log_level lg s in if lvl =? -1 then MExits 1 else MGoing (mkmqconf six dev term det ifn sim ty wt lg)
  | QSimple => MGoing (mkmqconf six dev term det ifn true ty wt lg)
  | QType s => MGoing (mkmqconf six dev term det ifn sim (atoi s) wt lg)
  | QVersion => MExits 0
  | QWait s => MGoing (mkmqconf six dev term det ifn sim ty (atoi s) lg)
  end.
(* mquery.c:527-589 *)
Fixpoint mq_options (c : mqconf) (os : list mqopt) : mqreading :=
  match os with
  | [] => MGoing c
  | o :: os => match mq_take c o with MGoing c => mq_options c os | e => e end
  end.

Definition IFNAMSIZ : Z := 16.
(* mquery.c:475-493 msock; the index is taken to be that of the interface whose
   name is kept *)
Definition msock (k : kernel) (ifname : option (list Z)) (family : Z) : trace * Z :=
  match ifname with
  | None => ([], -1)
  | Some n => multicast_socket k [] (cut IFNAMSIZ n) 0 family
  end.

(* What the loop of mquery is begun with *)
Record plan : Type := mkplan { p_fd : Z; p_family : Z; p_name : list Z; p_type : Z; p_conf : mqconf }.
Inductive start : Type := Starts (p : plan) | Ends (code : Z).
(* mquery.c:527-616: the options, the operands behind them and the lines of
   /proc/net/route.  Requests to the kernel are recorded. *)
Definition mq_prepare (k : kernel) (os : list mqopt) (operands : list (list Z)) (routes : list route) : trace * start :=
  match mq_options mqconf0 os with
  | MExits code => ([], Ends code)
  | MGoing c =>
      let name := match operands with n :: _ => n | [] => DISCO_NAME end in
      let ifname := match m_iface c with Some n => Some n | None => getifname [] IFNAMSIZ routes end in
      let family := if m_six c then AF_INET6 else AF_INET in
      let '(tr, sd) := msock k ifname family in
      if sd =? -1 then (tr, Ends 1)
      else if m_devices c then (tr, Starts (mkplan sd family DISCO_NAME QTYPE_PTR c))
      else (tr, Starts (mkplan sd family name (m_type c) c))
  end.
(* mquery.c:603-616 *)
Definition mq_begin {A} (t : tv) (p : plan) (a : A) (buf : Z -> Z) : res (loop A) := begin t (p_family p) (p_name p) (p_type p) a buf.

(* mquery.c:619-658 the loop: for each turn what Mquery.turn is given.  The
   packets, and the status if it ends *)
Record mqin : Type := mkmqin { i_env : env; i_ready : bool; i_recv : list (env * received); i_send : list (env * bool); i_end : Z }.
Fixpoint mq_loop {A} (beh : behaviour A) (terminate : bool) (wait began : Z) (s : loop A) (l : list mqin) : res (loop A * list (addr * list Z) * option Z) :=
  match l with
  | [] => Ok (s, [], None)
  | i :: l =>
      '(s, _, ps, v) <- Mquery.turn beh terminate wait began s (i_env i) (i_ready i) (i_recv i) (i_send i) (i_end i);;
      match v with
      | Again => '(s, ps', c) <- mq_loop beh terminate wait began s l;; Ok (s, ps ++ ps', c)
      | Done => Ok (s, ps, Some 0)
      | Fails => Ok (s, ps, Some 1)
      end
  end.
