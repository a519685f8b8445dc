(* Model of libmdnsd/mdnsd.c, part 4: mdnsd_in and mdnsd_sleep. *)
From Verif Require Import Base Hash Wire Rec Qry Out.

(* ------------------------------------------------------------------ *)
(* Local addresses *)

(* mdnsd.c:820-836 _refresh_local_addrs; entries without an address are not
   listed *)
Definition refresh (d : daemon) (e : env) (force : bool) : daemon :=
  if negb (ifs_time d =? 0) && (fst (now d) - ifs_time d <? 5) && negb force then d
  else match e_ifs e with
       | None => d
       | Some l => with_ifs d (Some l) (if fst (now d) =? 0 then e_time e else fst (now d))
       end.

Definition has_if (d : daemon) (fam : Z) (a : list Z) : bool :=
  match ifs d with
  | None => false
  | Some l => existsb (fun i => (if_family i =? fam) && bytes_eqb (if_ip i) a) l
  end.

(* mdnsd.c:839-861 _is_local_ipv4, 865-885 _is_local_ipv6, 889-896 _is_local *)
Definition is_local (d : daemon) (e : env) (from : addr) : daemon * bool :=
  if family from =? AF_INET6 then
    if bytes_eqb (ip from) (d_addr6 d) then (d, true)
    else let d := refresh d e false in (d, has_if d AF_INET6 (ip from))
  else
    if bytes_eqb (ip from) (d_addr d) then (d, true)
    else let d := refresh d e false in (d, has_if d AF_INET (ip from)).

(* mdnsd.c:1169-1173 and 1226-1230: forced once per message, then asked *)
Definition recheck (d : daemon) (e : env) (from : addr) (did : bool) : daemon * bool :=
  is_local (if did then d else refresh d e true) e from.

(* ------------------------------------------------------------------ *)
(* Questions *)

(* mdnsd.c:1143-1147 *)
Fixpoint disco_loop (fuel : nat) (s : recs) (t : tv) (r : option nat) (name : list Z) (type : Z) : res recs :=
  match fuel with
  | O => Hang
  | S fuel =>
      match r with
      | None => Ok s
      | Some x =>
          R <- hget (hp s) x;;
          s <- (if bytes_eqb (a_name (rr R)) DISCO_NAME then r_send s t x else Ok s);;
          n <- r_next s (Some x) name type;;
          disco_loop fuel s t n name type
      end
  end.

(* mdnsd.c:1163 and 1185: the answers in the question's name and type *)
Definition same_q (q : question) (a : resource) : bool :=
  (q_type q =? rr_type a) && bytes_eqb (q_name q) (rr_name a).

(* mdnsd.c:1162-1179: did another host claim the name of r, which we probe? *)
Fixpoint probe_check (d : daemon) (e : env) (from : addr) (did : bool) (q : question) (r : nat) (an : list resource)
  : res (daemon * bool * bool) :=
  match an with
  | [] => Ok (d, did, false)
  | a :: an =>
      if negb (same_q q a) then probe_check d e from did q r an
      else
        x <- hget (hp (R d)) r;;
        if a_match a (rr x) then probe_check d e from did q r an
        else
          let '(d, l) := recheck d e from did in
          if l : bool then probe_check d e from true q r an
          else s <- r_conflict (R d) (now d) r;; Ok (with_R d s, true, true)
  end.

(* mdnsd.c:1184-1194: is r among the known answers?  Logs what is passed to the
   receive callback. *)
Fixpoint known_check (d : daemon) (q : question) (x : mrec) (an : list resource) : daemon * bool :=
  match an with
  | [] => (d, false)
  | a :: an =>
      if negb (same_q q a) then known_check d q x an
      else
        let d := if has_recv d then add_received d a else d in
        if a_match a (rr x) then (d, true) else known_check d q x an
  end.

(* mdnsd.c:1153-1201 *)
Fixpoint answer_loop (fuel : nat) (d : daemon) (e : env) (from : addr) (did : bool) (q : question) (an : list resource) (r : option nat) (conf : bool)
  : res (daemon * bool * bool) :=
  match fuel with
  | O => Hang
  | S fuel =>
      match r with
      | None => Ok (d, did, conf)
      | Some r =>
          n <- r_next (R d) (Some r) (q_name q) (q_type q);;
          x <- hget (hp (R d)) r;;
          if probes x && negb (modified x) then
            '(d, did, c) <- probe_check d e from did q r an;;
            answer_loop fuel d e from did q an n (conf || c)
          else
            let '(d, known) := known_check d q x an in
            if known : bool then answer_loop fuel d e from did q an n conf
            else
              s <- r_send (R d) (now d) r;;
              answer_loop fuel (with_R d s) e from did q an n conf
      end
  end.

(* mdnsd.c:1128-1206 *)
Fixpoint questions (d : daemon) (e : env) (from : addr) (did : bool) (id : Z) (qd : list question) (an : list resource) : res daemon :=
  match qd with
  | [] => Ok d
  | q :: qd =>
      if negb (q_class q =? class d) then questions d e from did id qd an
      else
        r <- r_next (R d) None (q_name q) (q_type q);;
        match r with
        | None => questions d e from did id qd an
        | Some r0 =>
            if bytes_eqb (q_name q) DISCO_NAME then
              let d := with_disco d true in
              s <- disco_loop (qfuel (R d)) (R d) (now d) r (q_name q) (q_type q);;
              questions (with_R d s) e from did id qd an
            else
              '(d, did, conf) <- answer_loop (qfuel (R d)) d e from did q an r false;;
              let d := if negb conf && negb (port from =? 5353) then with_R d (u_push (R d) r0 id from) else d in
              questions d e from did id qd an
        end
  end.

(* ------------------------------------------------------------------ *)
(* Answers *)

(* mdnsd.c:1212-1242 *)
Fixpoint responses (d : daemon) (e : env) (from : addr) (did : bool) (an : list resource) : res daemon :=
  match an with
  | [] => Ok d
  | a :: an =>
      r <- r_next (R d) None (rr_name a) (rr_type a);;
      '(d, did, skip) <-
        match r with
        | None => Ok (d, did, false)
        | Some r =>
            x <- hget (hp (R d)) r;;
            if negb (unique x =? 0) && modified x && a_match a (rr x) then
              let '(d, l) := recheck d e from did in
              if l : bool then Ok (d, true, true)
              else s <- r_conflict (R d) (now d) r;; Ok (with_R d s, true, false)
            else Ok (d, did, false)
        end;;
      if skip : bool then responses d e from did an
      else
        let d := if has_recv d then add_received d a else d in
        q <- cache_rr (Q d) (fst (now d)) (e_cb e) (class d) a from;;
        responses (with_Q d q) e from did an
  end.

(* mdnsd.c:1111-1245 mdnsd_in *)
Definition mdnsd_in (d : daemon) (e : env) (m : message) (from : addr) : res (daemon * Z) :=
  if is_shutdown d then Ok (d, 1)
  else
    let d := with_now d (e_now e) in
    let '(d, l) := is_local d e from in
    if l : bool then Ok (d, 0)
    else
      d <- (if h_qr (m_header m) =? 0 then questions d e from false (m_id m) (m_qd m) (m_an m)
            else responses d e from false (m_an m));;
      Ok (d, 0).

(* ------------------------------------------------------------------ *)
(* Timeouts *)

(* mdnsd.c:1455-1461 RET: subtract 1000000 from the microseconds while they
   exceed it, in closed form *)
Definition ret_sleep (t : tv) : tv :=
  if snd t <=? 1000000 then t
  else let k := (snd t - 1) / 1000000 in (fst t + k, snd t - k * 1000000).

Definition until (d : daemon) (t : tv) : tv :=
  let usec := tvdiff (now d) t in ret_sleep (0, if 0 <? usec then usec else 0).

(* mdnsd.c:1510-1527: the first record of each bucket *)
Fixpoint republish (s : recs) (t : tv) (heads : list (list nat)) (expire : Z) : res (recs * Z) :=
  match heads with
  | [] => Ok (s, expire)
  | [] :: bs => republish s t bs expire
  | (r :: _) :: bs =>
      R <- hget (hp s) r;;
      let next := fst (last_sent R) + a_ttl (rr R) - fst t in
      s <- (if next <=? 2 then r_push s Pause r else Ok s);;
      republish s t bs (if next <? expire then next else expire)
  end.

(* mdnsd.c:1463-1533 mdnsd_sleep *)
Definition mdnsd_sleep (d : daemon) (e : env) : res (daemon * tv) :=
  match uans (R d), a_now (R d) with
  | [], None =>
      let d := with_now d (e_now e) in
      let s := R d in
      match a_pause s, probing s, a_publish s with
      | Some _, _, _ => Ok (d, until d (t_pause s))
      | None, Some _, _ => Ok (d, until d (t_probe s))
      | None, None, Some _ => Ok (d, until d (t_publish s))
      | None, None, None =>
          if negb (checkq (Q d) =? 0) then
            let sec := checkq (Q d) - fst (now d) in
            Ok (d, ret_sleep (if 0 <? sec then sec else 0, 0))
          else
            let expire := expireall d - fst (now d) in
            if expire <? 0 then Ok (d, (0, 0))
            else
              '(s, expire) <- republish s (now d) (pub s) expire;;
              let sec := if 2 <? expire then expire - 2 else 0 in
              Ok (with_R d (set_tpause s (fst (now d) + sec, snd (t_pause s))), ret_sleep (sec, 0))
      end
  | _, _ => Ok (d, (0, 0))
  end.
