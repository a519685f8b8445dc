(* Model of src/mquery.c: the tables of -D and -d, the answer callbacks, the
   tables that are printed, the choice of the interface, and the main loop. *)
From Verif Require Import Base Hash Xht SdTxt Wire Rec Qry Out In Api Reent Lib Step Conf.

(* What strlcpy leaves in an array of n bytes (C62) *)
Definition cut (n : Z) (s : list Z) : list Z := firstn (Z.to_nat (n - 1)) s.

(* mquery.c:56-63; arrays of char as the strings they hold *)
Record instance : Type := mkinstance { i_name : list Z; i_host : list Z; i_port : Z; i_product : list Z; i_version : list Z }.
(* mquery.c:65-70; naddrs is the length of the list *)
Record device : Type := mkdevice { v_host : list Z; v_addrs : list (list Z) }.
(* mquery.c:72-73; the lists as linked, the newest entry first *)
Record tables : Type := mktables { instances : list instance; devices : list device }.
Definition no_tables : tables := mktables [] [].

(* The position of the first element that satisfies p *)
Fixpoint index_of {A} (p : A -> bool) (l : list A) : option nat :=
  match l with
  | [] => None
  | x :: l => if p x then Some O else option_map S (index_of p l)
  end.

(* mquery.c:75-90; the instance found or made is given by its position.
   calloc succeeds. *)
Definition find_or_create_instance (l : list instance) (name : list Z) : list instance * nat :=
  match index_of (fun i => bytes_eqb (i_name i) name) l with
  | Some k => (l, k)
  | None => (mkinstance (cut 256 name) [] 0 [] [] :: l, O)
  end.
(* mquery.c:92-107 *)
Definition find_or_create_device (l : list device) (name : list Z) : list device * nat :=
  match index_of (fun v => bytes_eqb (v_host v) name) l with
  | Some k => (l, k)
  | None => (mkdevice (cut 256 name) [] :: l, O)
  end.
Definition no_instance : instance := mkinstance [] [] 0 [] [].
Definition no_device : device := mkdevice [] [].

(* mquery.c:67 *)
Definition ADDRS : Z := 8.
Definition INET6_ADDRSTRLEN : Z := 46.
(* mquery.c:109-118 *)
Definition device_add_addr (v : device) (addr : list Z) : res device :=
  if existsb (fun a => bytes_eqb a addr) (v_addrs v) then Ok v
  else if zlen (v_addrs v) <? 8 then
    if zlen (v_addrs v) <? ADDRS then Ok (mkdevice (v_host v) (v_addrs v ++ [cut INET6_ADDRSTRLEN addr])) else UB (OobWrite (zlen (v_addrs v)))
  else Ok v.

(* rdata is an array of unsigned char *)
Definition uchars (l : list Z) : list Z := map (fun c => c mod 256) l.

Definition S_PRODUCT : list Z := [112; 114; 111; 100; 117; 99; 116].   (* "product" *)
Definition S_VERSION : list Z := [118; 101; 114; 115; 105; 111; 110].  (* "version" *)

(* The callbacks as the library is given them: 0 with NULL as argument, 1 with
   another argument, which is never looked at. *)
Definition PLAIN : nat := 0%nat.
Definition SPEC : nat := 1%nat.

Section Mquery.
(* inet_ntop(3): the text of an address of the family *)
Variable ntop : Z -> list Z -> list Z.

(* mquery.c:312-313, 318-319 *)
Definition add_device (s : tables) (name text : list Z) : res (tables * list qcall * bool) :=
  let '(l, k) := find_or_create_device (devices s) name in
  v <- device_add_addr (nth k l no_device) text;;
  Ok (mktables (instances s) (upd l k v), [], false).

(* mquery.c:256-327 ans_dev *)
Definition ans_dev (s : tables) (arg : nat) (a : answer) : res (tables * list qcall * bool) :=
  if a_ttl a =? 0 then Ok (s, [], false)
  else if a_type a =? QTYPE_PTR then
    match a_rdname a with
    | None | Some [] => Ok (s, [], false)
    | Some n =>
        if Nat.eqb arg PLAIN then Ok (s, [(n, QTYPE_PTR, Some SPEC)], false)
        else Ok (mktables (fst (find_or_create_instance (instances s) n)) (devices s), [(n, QTYPE_SRV, Some PLAIN); (n, QTYPE_TXT, Some PLAIN)], false)
    end
  else if a_type a =? QTYPE_SRV then
    match a_rdname a with
    | None | Some [] => Ok (s, [], false)
    | Some n =>
        let '(l, k) := find_or_create_instance (instances s) (a_name a) in
        let i := nth k l no_instance in
        match i_host i with
        | [] => Ok (mktables (upd l k (mkinstance (i_name i) (cut 256 n) (a_port a) (i_product i) (i_version i))) (devices s), [(n, QTYPE_A, Some PLAIN); (n, QTYPE_AAAA, Some PLAIN)], false)
        | _ => Ok (mktables l (devices s), [], false)
        end
    end
  else if a_type a =? QTYPE_TXT then
    match a_rdata a with
    | None | Some [] => Ok (s, [], false)
    | Some data =>
        let '(l, k) := find_or_create_instance (instances s) (a_name a) in
        let i := nth k l no_instance in
        t <- txt2sd (uchars data) (zlen data);;
        let product := match get_opt t S_PRODUCT, i_product i with Some v, [] => cut 64 v | _, p => p end in
        let version := match get_opt t S_VERSION, i_version i with Some v, [] => cut 64 v | _, p => p end in
        Ok (mktables (upd l k (mkinstance (i_name i) (i_host i) (i_port i) product version)) (devices s), [], false)
    end
  else if a_type a =? QTYPE_A then add_device s (a_name a) (ntop AF_INET (a_ip a))
  else if a_type a =? QTYPE_AAAA then add_device s (a_name a) (ntop AF_INET6 (a_ip6 a))
  else Ok (s, [], false).

(* What is printed by ans, by its format *)
Inductive printed : Type :=
| PFound (name ip : list Z)                       (* "+ %s (%s)" *)
| PAddr (v6 : bool) (name : list Z) (ip : list Z) (* "A %s for %d seconds to ip %s" *)
| PName (name rdname : list Z)                    (* "PTR %s for %d seconds to %s" *)
| PSrv (name rdname : list Z) (port : Z)          (* "SRV %s for %d seconds to %s:%d" *)
| POther (type : Z) (name : list Z) (len : Z).    (* "%s %s for %d seconds with %d data" *)

(* mquery.c:201-254 ans, with what was printed before; the seconds are left
   out.  %s needs a string. *)
Definition ans (simple : bool) (s : list printed) (spec : nat) (a : answer) : res (list printed * list qcall * bool) :=
  if negb simple then
    if negb (a_type a =? QTYPE_PTR) then Ok (s, [], false)
    else
      match a_rdname a with
      | None => UB NullDeref
      | Some n =>
          Ok (s ++ [PFound n (if is_zero (a_ip a) then ntop AF_INET6 (a_ip6 a) else ntop AF_INET (a_ip a))],
              (if Nat.eqb spec PLAIN then [(n, a_type a, Some SPEC)] else []), false)
      end
  else if a_type a =? QTYPE_A then Ok (s ++ [PAddr false (a_name a) (ntop AF_INET (a_ip a))], [], false)
  else if a_type a =? QTYPE_AAAA then Ok (s ++ [PAddr true (a_name a) (ntop AF_INET6 (a_ip6 a))], [], false)
  else if a_type a =? QTYPE_PTR then
    match a_rdname a with None => UB NullDeref | Some n => Ok (s ++ [PName (a_name a) n], [], false) end
  else if a_type a =? QTYPE_SRV then
    match a_rdname a with None => UB NullDeref | Some n => Ok (s ++ [PSrv (a_name a) n (a_port a)], [], false) end
  else Ok (s ++ [POther (a_type a) (a_name a) (zlen (match a_rdata a with Some l => l | None => [] end))], [], false).
End Mquery.

(* strchr: the part before the character and, if it is there, what follows it *)
Fixpoint strchr (c : Z) (s : list Z) : list Z * option (list Z) :=
  match s with
  | [] => ([], None)
  | x :: s => if x =? c then ([], Some s) else let '(a, b) := strchr c s in (x :: a, b)
  end.

(* mquery.c:329-339; all callers give an array of 256 bytes *)
Definition shortname (hostname : list Z) : list Z :=
  let buf := cut 256 hostname in
  let n := zlen buf in
  if (0 <? n) && (zget buf (n - 1) =? 46) then firstn (Z.to_nat (n - 1)) buf else buf.

(* mquery.c:341-357 *)
Definition matches_detail (detail : option (list Z)) (hostname : list Z) : bool :=
  match detail with
  | None => true
  | Some detail =>
      let fqdn := shortname hostname in
      let bare := fst (strchr 46 (cut 256 fqdn)) in
      bytes_eqb detail fqdn || bytes_eqb detail hostname || bytes_eqb detail bare
  end.

(* printf's %-*s *)
Definition pad (w : Z) (s : list Z) : list Z := s ++ repeat 32 (Z.to_nat (w - zlen s)).

(* mquery.c:363-393 the widths of the columns *)
Definition wider (w : Z) (s : list Z) : Z := if w <? zlen s then zlen s else w.
Definition widths (s : tables) (detail : option (list Z)) : Z * Z * Z :=
  let '(n, a, p) :=
    fold_left (fun w v =>
      let '(n, a, p) := w in
      if matches_detail detail (v_host v) then
        (wider n (shortname (v_host v)), fold_left wider (v_addrs v) a,
         fold_left (fun p i => if negb (bytes_eqb (i_host i) (v_host v)) || match i_product i with [] => true | _ => false end then p else wider p (i_product i)) (instances s) p)
      else w) (devices s) (4, 7, 7) in
  (n + 2, a + 2, p).

(* mquery.c:406-423 the lines for one device, without the newlines *)
Definition device_lines (s : tables) (name_w addr_w : Z) (v : device) : list (list Z) :=
  let product := match find (fun i => bytes_eqb (i_host i) (v_host v) && match i_product i with [] => false | _ => true end) (instances s) with
                 | Some i => cut 64 (i_product i)
                 | None => []
                 end in
  (pad name_w (shortname (v_host v)) ++ 32 :: pad addr_w (match v_addrs v with a :: _ => a | [] => [] end) ++ 32 :: product) ::
  map (fun a => pad name_w [] ++ 32 :: a) (tl (v_addrs v)).
(* mquery.c:359-425 print_devices, without the header *)
Definition print_devices (s : tables) (detail : option (list Z)) : list (list Z) :=
  let '(name_w, addr_w, _) := widths s detail in
  flat_map (fun v => if matches_detail detail (v_host v) then device_lines s name_w addr_w v else []) (devices s).

(* mquery.c:454-463 the type of a service from the name of an instance of it *)
Definition service_of (iname : list Z) : list Z :=
  let svc := cut 256 (match strchr 46 iname with (_, Some r) => r | (a, None) => a end) in
  match strchr 46 svc with
  | (a, Some r) => match strchr 46 r with (b, Some _) => a ++ 46 :: b | (_, None) => svc end
  | (_, None) => svc
  end.
(* mquery.c:451-470 the line for one instance: service, port, product, version *)
Definition detail_line (i : instance) : list Z * Z * list Z * list Z := (service_of (i_name i), i_port i, i_product i, i_version i).
(* mquery.c:427-473 print_device_detail: for each device its name, its addresses
   and its services *)
Definition print_device_detail (s : tables) (detail : option (list Z)) : list (list Z * list (list Z) * list (list Z * Z * list Z * list Z)) :=
  flat_map (fun v =>
    if matches_detail detail (v_host v) then
      [(shortname (v_host v), v_addrs v, map detail_line (filter (fun i => bytes_eqb (i_host i) (v_host v)) (instances s)))]
    else []) (devices s).

(* A line of /proc/net/route as sscanf gives it: the number of fields converted,
   interface, destination, flags and mask *)
Record route : Type := mkroute { ro_rc : Z; ro_name : list Z; ro_dest : Z; ro_flags : Z; ro_mask : Z }.
(* mquery.c:126-162 getifname; ifname is the buffer's string *)
Fixpoint getifname (ifname : list Z) (len : Z) (l : list route) : option (list Z) :=
  match l with
  | [] => None
  | r :: l =>
      if (ro_rc r <? 10) || negb (Z.odd (ro_flags r)) then getifname ifname len l
      else if negb (ro_dest r =? 0) || negb (ro_mask r =? 0) then getifname ifname len l
      else if match ifname with [] => true | _ => bytes_eqb (firstn 3 ifname) [116; 117; 110] end then Some (cut len (ro_name r))
      else getifname ifname len l
  end.

(* ---- the main loop ---- *)
(* mquery.c:603-618: daemon, program, receive buffer and time of the last
   datagram *)
Record loop (A : Type) : Type := mkloop { l_daemon : daemon; l_prog : A; l_buf : Z -> Z; l_last : Z }.
Arguments mkloop {A}.
Arguments l_daemon {A}.
Arguments l_prog {A}.
Arguments l_buf {A}.
Arguments l_last {A}.

(* mquery.c:633 recvfrom into buf[MAX_PACKET_LEN] *)
Definition mq_fill (buf : Z -> Z) (b : list Z) (i : Z) : Z :=
  if (0 <=? i) && (i <? Z.min (zlen b) MAX_PACKET_LEN) then zget b i else buf i.
(* mquery.c:632-642; false: return 1 *)
Fixpoint mq_receive {A} (beh : behaviour A) (s : loop A) (l : list (env * received)) : res (loop A * bool) :=
  match l with
  | [] => Ok (s, true)
  | (_, Failure) :: _ => Ok (s, false)
  | (e, Datagram b from) :: l =>
      if zlen b =? 0 then Ok (s, true)
      else
        let buf := mq_fill (l_buf s) b in
        let last := fst (e_now e) in
        match message_parse (mkbuffer MAX_PACKET_LEN buf) MSG_BLOCK with
        | Ok (m, _, _) => '(d, a, _) <- in_re beh (l_daemon s) (l_prog s) e m from;; mq_receive beh (mkloop d a buf last) l
        | Rej => mq_receive beh (mkloop (l_daemon s) (l_prog s) buf last) l
        | UB u => UB u
        | Hang => Hang
        end
  end.
(* mquery.c:645-652; as process_out in Step.v *)
Fixpoint mq_send {A} (beh : behaviour A) (d : daemon) (a : A) (l : list (env * bool)) : res (daemon * A * list (addr * list Z) * bool) :=
  match l with
  | [] => Hang
  | (e, sent) :: l =>
      '(d, a, m, n) <- out_re beh d a e;;
      if n =? 0 then Ok (d, a, [], true)
      else if e_ovf (encode (o_calls m)) then UB (OobWrite MAX_PACKET_LEN)
      else if sent then '(d, a, ps, ok) <- mq_send beh d a l;; Ok (d, a, packet_of m :: ps, ok)
      else Ok (d, a, [packet_of m], false)
  end.

(* What comes after a turn of the loop: another one, the end, or return 1 *)
Inductive verdict : Type := Again | Done | Fails.
(* mquery.c:624-625 the time select waits at most; mdnsd_sleep never returns
   NULL *)
Definition select_time (terminate : bool) (t : tv) : tv := if terminate && (1 <=? fst t) then (1, 0) else t.
(* mquery.c:654-657 *)
Definition finished (terminate : bool) (wait start last t : Z) : bool :=
  (terminate && negb (last =? 0) && (2 <=? t - last)) || (negb (wait =? 0) && (wait <=? t - start)).
(* mquery.c:619-658 one turn: e is the environment of mdnsd_sleep; ready, li, lo
   what select, recvfrom and sendto do; t the time at the end.  Given too: the
   time select may wait, and the packets. *)
Definition turn {A} (beh : behaviour A) (terminate : bool) (wait start : Z) (s : loop A) (e : env) (ready : bool) (li : list (env * received)) (lo : list (env * bool)) (t : Z)
  : res (loop A * tv * list (addr * list Z) * verdict) :=
  '(d, sl) <- mdnsd_sleep (l_daemon s) e;;
  let s := mkloop d (l_prog s) (l_buf s) (l_last s) in
  '(s, ok) <- (if ready then mq_receive beh s li else Ok (s, true));;
  if negb ok then Ok (s, select_time terminate sl, [], Fails)
  else
    '(d, a, ps, ok) <- mq_send beh (l_daemon s) (l_prog s) lo;;
    let s := mkloop d a (l_buf s) (l_last s) in
    Ok (s, select_time terminate sl, ps, if negb ok then Fails else if finished terminate wait start (l_last s) t then Done else Again).

(* mquery.c:603-616 before the loop *)
Definition begin {A} (t : tv) (family : Z) (name : list Z) (type : Z) (a : A) (buf : Z -> Z) : res (loop A) :=
  let e := mkenv t 0 None (fun _ => false) in
  '(d, _) <- step (mdnsd_new t 1 1000) e (OSetFamily family);;
  '(d, _) <- step d e (OQuery name type (Some PLAIN));;
  Ok (mkloop d a buf 0).
