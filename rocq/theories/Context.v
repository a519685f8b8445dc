(* Model of src/mdnsd.c: the life of the mDNS contexts of one interface, one for IPv4
   and one for IPv6 once there is an IPv6 socket. *)
From Verif Require Import Base Hash Wire Rec Qry Out In Api Step Free Conf Load ConfInit.

Record contexts : Type := mkcontexts { v4 : daemon; v6 : option daemon }.

(* What conf_init finds: the disk, what its arrays hold at first, the host name, the
   counter of the interface, the path given to mdnsd *)
Record source : Type := mksource {
  f_disk : disk; f_expand : list Z -> option (list (list Z)); f_line : list Z; f_hostbuf : list Z; f_hostnm : list Z; f_hostid : Z; f_path : list Z; f_env : env }.
(* What one call of mdnsd_step is given: whether select(2) found something to read,
   what the socket then gives, and how sending goes *)
Record round : Type := mkround { n_env : env; n_ready : bool; n_recv : list (env * received); n_send : list (env * bool) }.

(* src/mdnsd.c:176-183 and 198-206: a new context *)
Definition context (t : tv) (f : option Z) : daemon :=
  let d := mdnsd_new t 1 1000 in
  with_recv (match f with Some f => with_family d f | None => d end) true.

(* src/mdnsd.c:166-216 setup_iface and 390-481 the main loop *)
Inductive deed : Type :=
| Setup (s : source) (six : option tv)   (* setup_iface; six: the time if there is an IPv6 socket *)
| Reload (s : source)                    (* src/mdnsd.c:425-432 *)
| Serve (r : round) (r6 : option round). (* src/mdnsd.c:455-479; r6: if there is an IPv6 socket *)

(* src/mdnsd.c:213 and 431: conf_init, whose result is not used *)
Definition configure (ifname : list Z) (s : source) (x : contexts) : res contexts :=
  '(d, d6, _) <- conf_init (f_disk s) (f_expand s) (f_line s) (f_hostbuf s) (f_hostnm s) (f_hostid s) (f_path s) (v4 x) (v6 x) (f_env s) ifname;;
  Ok (mkcontexts d d6).
(* src/mdnsd.c:425-430 records_clear *)
Definition wipe (d : daemon) : res daemon := s <- records_clear (R d);; Ok (with_R d s).
(* The packets sent, and whether the IPv4 socket still works: if not, free_iface
   follows *)
Definition act (ifname : list Z) (x : contexts) (a : deed) : res (contexts * list (addr * list Z) * bool) :=
  match a with
  | Setup s six =>
      let x := match v6 x, six with None, Some t => mkcontexts (v4 x) (Some (context t (Some AF_INET6))) | _, _ => x end in
      x <- configure ifname s x;; Ok (x, [], true)
  | Reload s =>
      d <- wipe (v4 x);;
      d6 <- match v6 x with None => Ok None | Some d6 => d6 <- wipe d6;; Ok (Some d6) end;;
      x <- configure ifname s (mkcontexts d d6);; Ok (x, [], true)
  | Serve r r6 =>
      '(d, ps, _, rc) <- mdnsd_step (v4 x) (n_env r) (n_ready r) true true (n_recv r) (n_send r);;
      if negb (rc =? 0) then Ok (mkcontexts d (v6 x), ps, false)
      else
        match v6 x, r6 with
        | Some d6, Some r6 =>
            '(d6, ps6, _, _) <- mdnsd_step d6 (n_env r6) (n_ready r6) true true (n_recv r6) (n_send r6);;
            Ok (mkcontexts d (Some d6), ps ++ ps6, true)
        | _, _ => Ok (mkcontexts d (v6 x), ps, true)
        end
  end.
(* src/mdnsd.c:390-481, what happens to one interface, in any order *)
Fixpoint live_on (ifname : list Z) (x : contexts) (l : list deed) : res (contexts * list (addr * list Z) * bool) :=
  match l with
  | [] => Ok (x, [], true)
  | a :: l =>
      '(x, ps, ok) <- act ifname x a;;
      if ok : bool then '(x, ps', ok) <- live_on ifname x l;; Ok (x, ps ++ ps', ok) else Ok (x, ps, false)
  end.

(* src/mdnsd.c:141-163 free_iface, for one context with a socket.  e: the clock *)
Definition retire (d : daemon) (e : env) (lo : list (env * bool)) : res (list (addr * list Z) * list block) :=
  s <- shutdown_recs (R d);;
  '(d, ps, _, _) <- mdnsd_step (with_shutdown (with_R d s)) e false true false [] lo;;
  bl <- mdnsd_free d;;
  Ok (ps, bl).
