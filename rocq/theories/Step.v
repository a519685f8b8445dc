(* Model of libmdnsd/mdnsd.c, part 6: mdnsd_step, the loop around a socket. *)
From Verif Require Import Base Hash Wire Rec Qry Out In Api.

(* What recvfrom finds: a datagram and its sender, or an error other than
   EAGAIN.  The end of the list is EAGAIN.  Each comes with the environment the
   call of mdnsd_in for it runs in. *)
Inductive received : Type :=
| Datagram (b : list Z) (from : addr)
| Failure.

(* mdnsd.c:1921 the receive buffer has MAX_PACKET_LEN + 1 bytes; the storage of
   struct message includes its padding byte, see Wire.v. *)
Definition RECV_SIZE : Z := MAX_PACKET_LEN + 1.
Definition MSG_BLOCK : Z := 65536.

(* recvfrom stores the first MAX_PACKET_LEN bytes of the datagram at the start
   of the buffer and leaves the others; mdnsd.c:1932 then clears the last one. *)
Definition fill (buf : Z -> Z) (b : list Z) (i : Z) : Z :=
  if (0 <=? i) && (i <? Z.min (zlen b) MAX_PACKET_LEN) then zget b i
  else if i =? MAX_PACKET_LEN then 0 else buf i.

(* mdnsd.c:1928-1942 the loop of process_in.  An empty datagram ends it.  What
   mdnsd_in returns is not used. *)
Fixpoint receive (d : daemon) (buf : Z -> Z) (l : list (env * received)) : res (daemon * Z) :=
  match l with
  | [] => Ok (d, 0)
  | (_, Failure) :: _ => Ok (d, 1)
  | (e, Datagram b from) :: l =>
      if zlen b =? 0 then Ok (d, 0)
      else
        let buf := fill buf b in
        match message_parse (mkbuffer RECV_SIZE buf) MSG_BLOCK with
        | Ok (m, _, _) => '(d, _) <- mdnsd_in d e m from;; receive d buf l
        | Rej => receive d buf l
        | UB u => UB u
        | Hang => Hang
        end
  end.

(* mdnsd.c:1919-1947 process_in: the buffer is cleared once, on entry. *)
Definition process_in (d : daemon) (l : list (env * received)) : res (daemon * Z) := receive d (fun _ => 0) l.

(* The header flags mdnsd_out sets, mdnsd.c:1258-1259 and 1353-1354. *)
Definition out_header (m : omsg) : header :=
  let b := if o_qr m then 1 else 0 in mkheader b 0 b 0 0 0 0 0.
(* mdnsd.c:1957-1958 the bytes that are sent, and their destination *)
Definition packet_of (m : omsg) : addr * list Z := (o_to m, message_packet (encode (o_calls m)) (o_id m) (out_header m)).

(* mdnsd.c:1949-1967 process_out.  The list supplies an environment for each
   call of mdnsd_out and whether sendto then sends everything; it stands for the
   iterations, Hang means more are needed. *)
Fixpoint process_out (d : daemon) (l : list (env * bool)) : res (daemon * list (addr * list Z) * Z) :=
  match l with
  | [] => Hang
  | (e, sent) :: l =>
      '(d, m, n) <- mdnsd_out d e;;
      if n =? 0 then Ok (d, [], 0)
      else if e_ovf (encode (o_calls m)) then UB (OobWrite MAX_PACKET_LEN)
      else if sent then '(d, ps, rc) <- process_out d l;; Ok (d, packet_of m :: ps, rc)
      else Ok (d, [packet_of m], 2)
  end.

(* mdnsd.c:1969-1990 mdnsd_step; tv is NULL if wt is false.  e: the environment
   of mdnsd_sleep *)
Definition mdnsd_step (d : daemon) (e : env) (inp out wt : bool) (li : list (env * received)) (lo : list (env * bool))
  : res (daemon * list (addr * list Z) * option tv * Z) :=
  '(d, rc) <- (if inp then process_in d li else Ok (d, 0));;
  '(d, ps, rc) <- (if (rc =? 0) && out then process_out d lo else Ok (d, [], rc));;
  '(d, t) <- (if (rc =? 0) && wt then '(d, t) <- mdnsd_sleep d e;; Ok (d, Some t) else Ok (d, None));;
  Ok (with_disco d false, ps, t, rc).
