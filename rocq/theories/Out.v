(* Model of libmdnsd/mdnsd.c, part 3: the daemon and mdnsd_out.

   A message under construction is the list of message_* calls made on it
   (libmdnsd/1035.c, modelled in Wire.v); its length is that of the packet they
   build. *)
From Verif Require Import Base Hash Wire Rec Qry.

(* ------------------------------------------------------------------ *)
(* Message calls *)

Inductive sect : Type := SAn | SNs | SAr.
Inductive mcall : Type :=
| MQd (name : list Z) (type class : Z)
| MRr (sec : sect) (name : list Z) (type class ttl : Z)
| MIp4 (a : list Z)
| MIp6 (a : list Z)
| MName (n : list Z)
| MSrv (p w q : Z) (n : option (list Z))
| MRaw (d : list Z).

Definition do_mcall (m : enc) (c : mcall) : enc :=
  match c with
  | MQd n ty cl => message_qd m (Some n) ty cl
  | MRr SAn n ty cl ttl => message_an m (Some n) ty cl ttl
  | MRr SNs n ty cl ttl => message_ns m (Some n) ty cl ttl
  | MRr SAr n ty cl ttl => message_ar m (Some n) ty cl ttl
  | MIp4 a => rdata_ipv4 m a
  | MIp6 a => rdata_ipv6 m a
  | MName n => rdata_name m (Some n)
  | MSrv p w q n => rdata_srv m p w q n
  | MRaw d => rdata_raw m d (zlen d)
  end.
Definition encode (m : list mcall) : enc := fold_left do_mcall m enc_empty.
Definition mlen (m : list mcall) : Z := packet_len (encode m).

(* mdnsd.c:659-685 _a_copy *)
Definition a_copy (a : answer) : list mcall :=
  if a_type a =? QTYPE_SRV then [MSrv (a_prio a) (a_weight a) (a_port a) (a_rdname a)]
  else match a_rdname a with
       | Some n => [MName n]
       | None =>
           match a_rdata a with
           | Some d => [MRaw d]
           | None =>
               if negb (is_zero (a_ip a)) then [MIp4 (a_ip a)]
               else if negb (is_zero (a_ip6 a)) then [MIp6 (a_ip6 a)]
               else []
           end
       end.

(* mdnsd.c:179-195 _rr_len *)
Definition rr_len (a : answer) : Z :=
  12 + match a_rdata a with Some d => zlen d | None => 0 end
     + match a_rdname a with Some n => zlen n | None => 0 end
     + (if is_zero (a_ip a) then 0 else 4)
     + (if is_zero (a_ip6 a) then 0 else 16)
     + (if a_type a =? QTYPE_PTR then 6 else 0).

(* mdnsd.h:41 DISCO_NAME, "_services._dns-sd._udp.local." *)
Definition DISCO_NAME : list Z :=
  [95; 115; 101; 114; 118; 105; 99; 101; 115; 46; 95; 100; 110; 115; 45; 115; 100; 46; 95; 117; 100; 112; 46;
   108; 111; 99; 97; 108; 46].

(* ------------------------------------------------------------------ *)
(* The daemon, mdnsd.c:94-116; received is the log of the receive callback. *)

Record daemon : Type := mkdaemon {
  R : recs; Q : qrys;
  now : tv; expireall : Z;
  class : Z; frame : Z;
  is_shutdown : bool; disco : bool;
  d_family : Z; d_addr : list Z; d_addr6 : list Z;
  ifs : option (list ifaddr); ifs_time : Z;
  has_recv : bool; received : list resource
}.

Definition GC : Z := 86400.   (* mdnsd.c:43 *)

(* mdnsd.c:917-935 mdnsd_new *)
Definition mdnsd_new (t : tv) (cls frm : Z) : daemon :=
  mkdaemon recs_new qrys_new t (fst t + GC) cls frm false false AF_INET zero4 zero16 None 0 false [].

Definition with_R (d : daemon) (r : recs) : daemon :=
  mkdaemon r (Q d) (now d) (expireall d) (class d) (frame d) (is_shutdown d) (disco d) (d_family d) (d_addr d) (d_addr6 d) (ifs d) (ifs_time d) (has_recv d) (received d).
Definition with_Q (d : daemon) (q : qrys) : daemon :=
  mkdaemon (R d) q (now d) (expireall d) (class d) (frame d) (is_shutdown d) (disco d) (d_family d) (d_addr d) (d_addr6 d) (ifs d) (ifs_time d) (has_recv d) (received d).
Definition with_now (d : daemon) (t : tv) : daemon :=
  mkdaemon (R d) (Q d) t (expireall d) (class d) (frame d) (is_shutdown d) (disco d) (d_family d) (d_addr d) (d_addr6 d) (ifs d) (ifs_time d) (has_recv d) (received d).
Definition with_expireall (d : daemon) (t : Z) : daemon :=
  mkdaemon (R d) (Q d) (now d) t (class d) (frame d) (is_shutdown d) (disco d) (d_family d) (d_addr d) (d_addr6 d) (ifs d) (ifs_time d) (has_recv d) (received d).
Definition with_shutdown (d : daemon) : daemon :=
  mkdaemon (R d) (Q d) (now d) (expireall d) (class d) (frame d) true (disco d) (d_family d) (d_addr d) (d_addr6 d) (ifs d) (ifs_time d) (has_recv d) (received d).
Definition with_disco (d : daemon) (b : bool) : daemon :=
  mkdaemon (R d) (Q d) (now d) (expireall d) (class d) (frame d) (is_shutdown d) b (d_family d) (d_addr d) (d_addr6 d) (ifs d) (ifs_time d) (has_recv d) (received d).
Definition with_family (d : daemon) (f : Z) : daemon :=
  mkdaemon (R d) (Q d) (now d) (expireall d) (class d) (frame d) (is_shutdown d) (disco d) f (d_addr d) (d_addr6 d) (ifs d) (ifs_time d) (has_recv d) (received d).
Definition with_addr (d : daemon) (a a6 : list Z) : daemon :=
  mkdaemon (R d) (Q d) (now d) (expireall d) (class d) (frame d) (is_shutdown d) (disco d) (d_family d) a a6 (ifs d) (ifs_time d) (has_recv d) (received d).
Definition with_ifs (d : daemon) (l : option (list ifaddr)) (t : Z) : daemon :=
  mkdaemon (R d) (Q d) (now d) (expireall d) (class d) (frame d) (is_shutdown d) (disco d) (d_family d) (d_addr d) (d_addr6 d) l t (has_recv d) (received d).
Definition with_recv (d : daemon) (b : bool) : daemon :=
  mkdaemon (R d) (Q d) (now d) (expireall d) (class d) (frame d) (is_shutdown d) (disco d) (d_family d) (d_addr d) (d_addr6 d) (ifs d) (ifs_time d) b (received d).
Definition add_received (d : daemon) (r : resource) : daemon :=
  mkdaemon (R d) (Q d) (now d) (expireall d) (class d) (frame d) (is_shutdown d) (disco d) (d_family d) (d_addr d) (d_addr6 d) (ifs d) (ifs_time d) (has_recv d) (received d ++ [r]).

(* What one call depends on besides the daemon: the clock (gettimeofday and
   time), getifaddrs() (None: failure; the same throughout the call) and the
   answer callbacks (true: returns -1). *)
Record env : Type := mkenv { e_now : tv; e_time : Z; e_ifs : option (list ifaddr); e_cb : nat -> bool }.

(* An outgoing message: destination, id, whether qr and aa are set. *)
Record omsg : Type := mkomsg { o_to : addr; o_id : Z; o_qr : bool; o_calls : list mcall }.

(* mdnsd.c:899-915 mdns_mcast *)
Definition mcast (fam : Z) : addr :=
  if fam =? AF_INET6 then mkaddr AF_INET6 [255; 2; 0; 0; 0; 0; 0; 0; 0; 0; 0; 0; 0; 0; 0; 251] 5353
  else mkaddr fam [224; 0; 0; 251] 5353.

(* ------------------------------------------------------------------ *)
(* Additional records *)

(* mdnsd.c:692-714 struct answered; ADDITIONAL_MAX is 64 *)
Definition answered_add (seen : list nat) (r : nat) : list nat :=
  if (length seen <? 64)%nat then seen ++ [r] else seen.

Definition flush_bit (r : mrec) : Z := if unique r =? 0 then 0 else 32768.

(* mdnsd.c:717-727 _ar *)
Definition ar (s : recs) (frm cls : Z) (m : list mcall) (r : nat) (seen : list nat) : res (list mcall * list nat) :=
  if mem r seen then Ok (m, seen)
  else
    x <- hget (hp s) r;;
    if frm <=? mlen m + rr_len (rr x) then Ok (m, seen)
    else Ok (m ++ MRr SAr (a_name (rr x)) (a_type (rr x)) (cls + flush_bit x) (a_ttl (rr x)) :: a_copy (rr x), answered_add seen r).

(* mdnsd.c:730-743 _ar_addr *)
Fixpoint ar_addr_loop (s : recs) (frm cls : Z) (l : list nat) (host : list Z) (m : list mcall) (seen : list nat) : res (list mcall * list nat) :=
  match l with
  | [] => Ok (m, seen)
  | x :: t =>
      r <- hget (hp s) x;;
      '(m, seen) <-
        (if bytes_eqb (a_name (rr r)) host && ((a_type (rr r) =? QTYPE_A) || (a_type (rr r) =? QTYPE_AAAA))
         then ar s frm cls m x seen else Ok (m, seen));;
      ar_addr_loop s frm cls t host m seen
  end.
Definition ar_addr (s : recs) (frm cls : Z) (host : option (list Z)) (m : list mcall) (seen : list nat) : res (list mcall * list nat) :=
  match host with
  | None => Ok (m, seen)
  | Some h => ar_addr_loop s frm cls (mdnsd_get_published s h) h m seen
  end.

(* mdnsd.c:758-768 *)
Fixpoint additional_loop (s : recs) (frm cls : Z) (l : list nat) (name : list Z) (m : list mcall) (seen : list nat) : res (list mcall * list nat) :=
  match l with
  | [] => Ok (m, seen)
  | x :: t =>
      r <- hget (hp s) x;;
      '(m, seen) <-
        (if negb (bytes_eqb (a_name (rr r)) name) then Ok (m, seen)
         else if a_type (rr r) =? QTYPE_SRV then
           '(m, seen) <- ar s frm cls m x seen;;
           ar_addr s frm cls (a_rdname (rr r)) m seen
         else if a_type (rr r) =? QTYPE_TXT then ar s frm cls m x seen
         else Ok (m, seen));;
      additional_loop s frm cls t name m seen
  end.

(* mdnsd.c:746-769 _additional *)
Definition additional (s : recs) (frm cls : Z) (m : list mcall) (ans : nat) (seen : list nat) : res (list mcall * list nat) :=
  a <- hget (hp s) ans;;
  if a_type (rr a) =? QTYPE_SRV then ar_addr s frm cls (a_rdname (rr a)) m seen
  else if negb (a_type (rr a) =? QTYPE_PTR) then Ok (m, seen)
  else match a_rdname (rr a) with
       | None => Ok (m, seen)
       | Some n => if bytes_eqb (a_name (rr a)) DISCO_NAME then Ok (m, seen)
                   else additional_loop s frm cls (mdnsd_get_published s n) n m seen
       end.

Fixpoint additionals (s : recs) (frm cls : Z) (m : list mcall) (l : list nat) (seen : list nat) : res (list mcall * list nat) :=
  match l with
  | [] => Ok (m, seen)
  | x :: t => '(m, seen) <- additional s frm cls m x seen;; additionals s frm cls m t seen
  end.

(* ------------------------------------------------------------------ *)
(* Answers *)

(* The answer for a record: message_an and _a_copy *)
Definition answer_calls (cls : Z) (x : mrec) : list mcall :=
  MRr SAn (a_name (rr x)) (a_type (rr x)) (cls + flush_bit x) (a_ttl (rr x)) :: a_copy (rr x).

(* Kept back while answering service enumeration: mdnsd.c:783-790 *)
Definition disco_skips (x : mrec) : bool :=
  negb (a_type (rr x) =? QTYPE_PTR) || negb (bytes_eqb (a_name (rr x)) DISCO_NAME).

(* mdnsd.c:772-817 _r_out *)
Fixpoint r_out (fuel : nat) (s : recs) (t : tv) (frm cls : Z) (dsc : bool) (q : queue) (m : list mcall) (seen : list nat) (ret : Z)
  : res (recs * list mcall * list nat * Z) :=
  match fuel with
  | O => Hang
  | S fuel =>
      match head s q with
      | None => Ok (s, m, seen, ret)
      | Some r =>
          x <- hget (hp s) r;;
          if mlen m + rr_len (rr x) <? frm then
            let s := set_head s q (if ptr_eqb (link x) (Some r) then None else link x) in
            if dsc && disco_skips x then r_out fuel s t frm cls dsc q m seen ret
            else
              let m := m ++ answer_calls cls x in
              let s := set_hp s (hset (hp s) r (set_modified (set_sent x t) false)) in
              if a_ttl (rr x) =? 0 then
                s <- r_remove_lists s r (Some q);;
                s <- r_done s r;;
                r_out fuel s t frm cls dsc q m seen (ret + 1)
              else r_out fuel s t frm cls dsc q m (answered_add seen r) (ret + 1)
          else Ok (s, m, seen, ret)
      end
  end.

(* mdnsd.c:1293-1329: the loop over a_publish *)
Fixpoint pub_loop (fuel : nat) (s : recs) (t : tv) (frm cls : Z) (cur last : option nat) (m : list mcall) (seen : list nat) (ret : Z)
  : res (recs * list mcall * list nat * Z) :=
  match fuel with
  | O => Hang
  | S fuel =>
      match cur with
      | None => Ok (s, m, seen, ret)
      | Some c =>
          x <- hget (hp s) c;;
          if mlen m + rr_len (rr x) <? frm then
            let next := link x in
            let m := m ++ answer_calls cls x in
            let x := set_sent (set_tries x (tries x + 1)) t in
            let s := set_hp s (hset (hp s) c x) in
            let seen := if a_ttl (rr x) =? 0 then seen else answered_add seen c in
            if negb (a_ttl (rr x) =? 0) && (tries x <? 4) then
              pub_loop fuel s t frm cls next (Some c) m seen (ret + 1)
            else
              let s := set_hp s (hset (hp s) c (set_link x None)) in
              let s := if ptr_eqb (a_publish s) (Some c) then set_head s Publish next else s in
              s <- match last with
                   | None => Ok s
                   | Some l => y <- hget (hp s) l;; Ok (set_hp s (hset (hp s) l (set_link y next)))
                   end;;
              s <- (if a_ttl (rr x) =? 0 then r_done s c else Ok s);;
              pub_loop fuel s t frm cls next last m seen (ret + 1)
          else Ok (s, m, seen, ret)
      end
  end.

(* mdnsd.c:1287-1335 *)
Definition out_publish (s : recs) (t : tv) (frm cls : Z) (m : list mcall) (seen : list nat) (ret : Z)
  : res (recs * list mcall * list nat * Z) :=
  match probing s, a_publish s with
  | None, Some _ =>
      if tvdiff t (t_publish s) <=? 0 then
        '(s, m, seen, ret) <- pub_loop (qfuel s) s t frm cls (a_publish s) None m seen ret;;
        let s := match a_publish s with Some _ => set_tpublish s (fst t + 2, snd t) | None => s end in
        Ok (s, m, seen, ret)
      else Ok (s, m, seen, ret)
  | _, _ => Ok (s, m, seen, ret)
  end.

(* ------------------------------------------------------------------ *)
(* Probes *)

(* mdnsd.c:1359-1383: ask, moving on those that are done *)
Fixpoint probe_ask (fuel : nat) (s : recs) (t : tv) (cls : Z) (r last : option nat) (m : list mcall) : res (recs * list mcall) :=
  match fuel with
  | O => Hang
  | S fuel =>
      match r with
      | None => Ok (s, m)
      | Some c =>
          x <- hget (hp s) c;;
          if unique x =? 4 then
            let next := link x in
            s <- (if ptr_eqb (probing s) (Some c) then Ok (set_head s Probing (link x))
                  else match last with
                       | None => Ok s
                       | Some l => y <- hget (hp s) l;; Ok (set_hp s (hset (hp s) l (set_link y (link x))))
                       end);;
            x <- hget (hp s) c;;
            let s := set_hp s (hset (hp s) c (set_unique (set_link x None) 5)) in
            s <- r_publish s t c;;
            probe_ask fuel s t cls next last m
          else
            let s := set_hp s (hset (hp s) c (set_sent x t)) in
            probe_ask fuel s t cls (link x) (Some c) (m ++ [MQd (a_name (rr x)) (a_type (rr x)) cls])
      end
  end.

(* mdnsd.c:1385-1394: append the proposed records *)
Fixpoint probe_tell (fuel : nat) (s : recs) (t : tv) (cls : Z) (r : option nat) (m : list mcall) (ret : Z) : res (recs * list mcall * Z) :=
  match fuel with
  | O => Hang
  | S fuel =>
      match r with
      | None => Ok (s, m, ret)
      | Some c =>
          x <- hget (hp s) c;;
          let s := set_hp s (hset (hp s) c (set_sent (set_unique x (unique x + 1)) t)) in
          probe_tell fuel s t cls (link x)
            (m ++ MRr SNs (a_name (rr x)) (a_type (rr x)) cls (a_ttl (rr x)) :: a_copy (rr x)) (ret + 1)
      end
  end.

(* mdnsd.c:1356-1402 *)
Definition out_probe (s : recs) (t : tv) (cls : Z) (m : list mcall) : res (recs * list mcall * Z) :=
  match probing s with
  | None => Ok (s, m, 0)
  | Some _ =>
      if tvdiff t (t_probe s) <=? 0 then
        '(s, m) <- probe_ask (qfuel s) s t cls (probing s) None m;;
        '(s, m, ret) <- probe_tell (qfuel s) s t cls (probing s) m 0;;
        Ok (if ret =? 0 then s else set_tprobe s (fst t, snd t + 250000), m, ret)
      else Ok (s, m, 0)
  end.

(* ------------------------------------------------------------------ *)
(* Queries *)

(* mdnsd.c:1410-1416 *)
Fixpoint query_ask (s : qrys) (t cls : Z) (l : list nat) (m : list mcall) (best : Z) : res (list mcall * Z) :=
  match l with
  | [] => Ok (m, best)
  | q :: l =>
      x <- qget s q;;
      if (0 <? q_next x) && (q_next x <=? t) && (q_tries x <? 3) then query_ask s t cls l (m ++ [MQd (q_nm x) (q_ty x) cls]) best
      else if (0 <? q_next x) && ((best =? 0) || (q_next x <? best)) then query_ask s t cls l m (q_next x)
      else query_ask s t cls l m best
  end.

(* mdnsd.c:1435-1443: known answers, until one is too old or does not fit *)
Fixpoint known_answers (frm cls t : Z) (name : list Z) (type : Z) (l : list cached) (m : list mcall) : list mcall :=
  match l with
  | [] => m
  | c :: l =>
      if c_match name type c then
        if (t + 8 <? a_ttl (c_rr c)) && (mlen m + rr_len (c_rr c) <? frm) then
          known_answers frm cls t name type l (m ++ MRr SAn name type cls (a_ttl (c_rr c) - t) :: a_copy (c_rr c))
        else m
      else known_answers frm cls t name type l m
  end.

(* q->list of a query that is still linked *)
Definition q_link (s : qrys) (q : nat) : res (option nat) :=
  _ <- qget s q;;
  Ok (hd_error (tail_after q (qlist s))).

(* mdnsd.c:1418-1444 *)
Fixpoint query_loop (fuel : nat) (s : qrys) (cb : nat -> bool) (t frm cls : Z) (q : option nat) (m : list mcall) (best ret : Z)
  : res (qrys * list mcall * Z * Z) :=
  match fuel with
  | O => Hang
  | S fuel =>
      match q with
      | None => Ok (s, m, best, ret)
      | Some i =>
          x <- qget s i;;
          if (q_next x =? 0) || (t <? q_next x) then
            n <- q_link s i;;
            query_loop fuel s cb t frm cls n m best ret
          else if q_tries x =? 3 then
            s <- c_expire s t cb (cbucket (q_nm x));;
            s <- q_reset s i;;
            n <- q_link s i;;
            query_loop fuel s cb t frm cls n m best ret
          else
            let next := t + (q_tries x + 1) in
            let s := qset s i (set_qnext x next (q_tries x + 1)) in
            let best := if (best =? 0) || (next <? best) then next else best in
            let m := known_answers frm cls t (q_nm x) (q_ty x) (centries s (cbucket (q_nm x))) m in
            n <- q_link s i;;
            query_loop fuel s cb t frm cls n m best (ret + 1)
      end
  end.

(* mdnsd.c:1404-1446 *)
Definition out_query (s : qrys) (cb : nat -> bool) (t frm cls : Z) (m : list mcall) : res (qrys * list mcall * Z) :=
  if negb (checkq s =? 0) && (checkq s <=? t) then
    '(m, best) <- query_ask s t cls (qlist s) m 0;;
    '(s, m, best, ret) <- query_loop (S (qfresh s)) s cb t frm cls (hd_error (qlist s)) m best 0;;
    Ok (set_checkq s best, m, ret)
  else Ok (s, m, 0).

(* ------------------------------------------------------------------ *)
(* mdnsd.c:1261-1281: a pending unicast answer *)
Definition out_unicast (s : recs) (t : tv) (frm cls : Z) (u : unicast) : res (recs * list mcall) :=
  x <- hget (hp s) (u_r u);;
  let m := MQd (a_name (rr x)) (a_type (rr x)) cls :: MRr SAn (a_name (rr x)) (a_type (rr x)) cls (a_ttl (rr x)) :: a_copy (rr x) in
  let s := set_hp s (hset (hp s) (u_r u) (set_sent x t)) in
  '(m, _) <- additional s frm cls m (u_r u) [u_r u];;
  Ok (s, m).

(* mdnsd.c:1247-1452 mdnsd_out: the daemon, the message and the result *)
Definition mdnsd_out (d : daemon) (e : env) : res (daemon * omsg * Z) :=
  let t := e_now e in
  let d := with_now d t in
  let to := mcast (d_family d) in
  let frm := frame d in
  let cls := class d in
  match uans (R d) with
  | u :: us =>
      '(s, m) <- out_unicast (set_uans (R d) us) t frm cls u;;
      Ok (with_R d s, mkomsg (u_to u) (u_id u) true m, 1)
  | [] =>
      '(s, m, seen, ret) <- r_out (qfuel (R d)) (R d) t frm cls (disco d) Now [] [] 0;;
      '(s, m, seen, ret) <- out_publish s t frm cls m seen ret;;
      if is_shutdown d then Ok (with_R d s, mkomsg to 0 true m, ret)
      else
        '(s, m, seen, ret) <-
          match a_pause s with
          | Some _ => if tvdiff t (t_pause s) <=? 0 then r_out (qfuel s) s t frm cls (disco d) Pause m seen ret else Ok (s, m, seen, ret)
          | None => Ok (s, m, seen, ret)
          end;;
        '(m, seen) <- additionals s frm cls m seen seen;;
        if negb (ret =? 0) then Ok (with_R d s, mkomsg to 0 true m, ret)
        else
          '(s, m, ret) <- out_probe s t cls m;;
          let d := with_R d s in
          if negb (ret =? 0) then Ok (d, mkomsg to 0 false m, ret)
          else
            '(q, m, ret) <- out_query (Q d) (e_cb e) (fst t) frm cls m;;
            if expireall d <? fst t then
              q <- gc q (fst t) (e_cb e);;
              Ok (with_expireall (with_Q d q) (fst t + GC), mkomsg to 0 false m, ret)
            else Ok (with_Q d q, mkomsg to 0 false m, ret)
  end.
