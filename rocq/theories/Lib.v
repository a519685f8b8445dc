(* Model of lib/strlcpy.c, libmdnsd/inet.c, src/netlink.c and of the level
   parser in libmdnsd/log.c, with the C library functions the application code
   shares. *)
From Verif Require Import Base.

(* Access to a C object: one byte of it *)
Definition cget (l : list Z) (i : Z) : res Z := if (0 <=? i) && (i <? zlen l) then Ok (zget l i) else UB (OobRead i).
Definition cset (l : list Z) (i v : Z) : res (list Z) := if (0 <=? i) && (i <? zlen l) then Ok (upd l (Z.to_nat i) v) else UB (OobWrite i).

(* lib/strlcpy.c:35-38 the copying loop.  nleft is the value before the
   decrement; both pointers have advanced by i.  The flag tells whether nleft
   became 0. *)
Fixpoint strlcpy_copy (nleft : nat) (dst src : list Z) (i : Z) : res (list Z * Z * bool) :=
  match nleft with
  | O | S O => Ok (dst, i, true)
  | S n =>
      c <- cget src i;;
      dst <- cset dst i c;;
      if c =? 0 then Ok (dst, i + 1, false) else strlcpy_copy n dst src (i + 1)
  end.
(* lib/strlcpy.c:45-46 the walk to the end of src *)
Fixpoint strlcpy_skip (fuel : nat) (src : list Z) (i : Z) : res Z :=
  match fuel with
  | O => Hang
  | S fuel => c <- cget src i;; if c =? 0 then Ok (i + 1) else strlcpy_skip fuel src (i + 1)
  end.
(* lib/strlcpy.c:28-50.  dst and src are the objects from the pointers on. *)
Definition strlcpy (dst src : list Z) (dsize : Z) : res (list Z * Z) :=
  '(dst, i, zero) <- (if dsize =? 0 then Ok (dst, 0, true) else strlcpy_copy (Z.to_nat dsize) dst src 0);;
  if zero then
    dst <- (if dsize =? 0 then Ok dst else cset dst i 0);;
    i <- strlcpy_skip (S (length src)) src i;;
    Ok (dst, i - 1)
  else Ok (dst, i - 1).

(* ------------------------------------------------------------------ *)
(* libmdnsd/inet.c.  struct sockaddr_storage as its bytes, x86-64 Linux: the
   family is little-endian at 0, sin_port and sin6_port are big-endian at 2,
   sin_addr is at 4, sin6_addr at 8. *)
Definition SS_SIZE : Z := 128.
Definition FAM_INET : Z := 2.
Definition FAM_INET6 : Z := 10.
(* inet.c:8-11 *)
Definition inet_family (ss : list Z) : Z := zget ss 0 + 256 * zget ss 1.
(* inet.c:13-18 *)
Definition inet_len (ss : list Z) : Z := if inet_family ss =? FAM_INET6 then 28 else 16.
Definition SIN_PORT : Z := 2.
Definition SIN6_PORT : Z := 2.
Definition SIN_ADDR : Z := 4.
Definition SIN6_ADDR : Z := 8.
Definition get16 (ss : list Z) (o : Z) : Z := zget ss o * 256 + zget ss (o + 1).
Definition put16 (ss : list Z) (o v : Z) : list Z := upd (upd ss (Z.to_nat o) (v / 256 mod 256)) (Z.to_nat (o + 1)) (v mod 256).
(* inet.c:20-27 *)
Definition inet_port (ss : list Z) : Z := if inet_family ss =? FAM_INET6 then get16 ss SIN6_PORT else get16 ss SIN_PORT.
(* inet.c:29-38 *)
Definition inet_set_port (ss : list Z) (port : Z) : list Z := if inet_family ss =? FAM_INET6 then put16 ss SIN6_PORT port else put16 ss SIN_PORT port.
(* inet.c:40-55; the wildcard addresses are all zero, as is the rest *)
Fixpoint store (ss : list Z) (o : nat) (l : list Z) : list Z := match l with [] => ss | x :: l => store (upd ss o x) (S o) l end.
Definition inet_anyaddr (family port : Z) : list Z :=
  let ss := repeat 0 (Z.to_nat SS_SIZE) in
  let ss := upd (upd ss 0 (family mod 256)) 1 (family / 256 mod 256) in
  if family =? FAM_INET6 then put16 (store ss (Z.to_nat SIN6_ADDR) (repeat 0 16)) SIN6_PORT port
  else put16 (store ss (Z.to_nat SIN_ADDR) (repeat 0 4)) SIN_PORT port.

(* ------------------------------------------------------------------ *)
(* src/netlink.c:104-117.  The received bytes; what the macros of
   linux/netlink.h do with a size_t: NLMSG_OK reads the header at nh if at least
   16 bytes are left, NLMSG_NEXT subtracts the aligned length modulo 2^64 even
   if that is more than what is left. *)
Definition NLMSG_HDRLEN : Z := 16.
(* on 32 bits *)
Definition nlmsg_align (n : Z) : Z := (n + 3) mod 2 ^ 32 / 4 * 4.
(* nlmsg_len is the 32 bits at 0, nlmsg_type the 16 bits at 4, little-endian *)
Definition nl_get (buf : list Z) (size o n : Z) : res Z :=
  if (0 <=? o) && (o + n <=? size) then Ok (fold_right (fun i v => zget buf (o + i) + 256 * v) 0 (zseq 0 (Z.to_nat n))) else UB (OobRead o).
Definition nl_relevant (ty : Z) : bool := (ty =? 16) || (ty =? 17) || (ty =? 20) || (ty =? 21).
(* size: of buf[], NL_BUFSZ; nh: offset; l: what is left *)
Fixpoint netlink_scan (fuel : nat) (buf : list Z) (size nh l : Z) (changed : bool) : res bool :=
  match fuel with
  | O => Hang
  | S fuel =>
      if l <? NLMSG_HDRLEN then Ok changed
      else
        len <- nl_get buf size nh 4;;
        if (len <? NLMSG_HDRLEN) || (l <? len) then Ok changed
        else
          ty <- nl_get buf size (nh + 4) 2;;
          netlink_scan fuel buf size (nh + nlmsg_align len) ((l - nlmsg_align len) mod 2 ^ 64) (changed || nl_relevant ty)
  end.
Definition NL_BUFSZ : Z := 4096.

(* What recv gives: bytes, EINTR, ENOBUFS, or another error.  The end of the
   list is EAGAIN. *)
Inductive nl_recv : Type := NlData (b : list Z) | NlIntr | NlNoBufs | NlError.
(* src/netlink.c:80-120; the bytes behind the received ones are those of the
   datagram before, or indeterminate; here they are 0 *)
Fixpoint netlink_read (l : list nl_recv) (changed : bool) : res Z :=
  match l with
  | [] => Ok (if changed then 1 else 0)
  | NlIntr :: l => netlink_read l changed
  | NlNoBufs :: _ => Ok 1
  | NlError :: _ => Ok (-1)
  | NlData b :: l =>
      c <- netlink_scan (S (Z.to_nat NL_BUFSZ)) b NL_BUFSZ 0 (Z.min (zlen b) NL_BUFSZ) changed;;
      netlink_read l c
  end.

(* ------------------------------------------------------------------ *)
(* The C library: isspace, strtol with base 10.  Result: value, clamped to
   long, and what follows the number (all of the string if there is none). *)
Definition is_space (c : Z) : bool := (c =? 32) || ((9 <=? c) && (c <=? 13)).
Definition is_digit (c : Z) : bool := (48 <=? c) && (c <=? 57).
Fixpoint skip_space (s : list Z) : list Z := match s with c :: t => if is_space c then skip_space t else s | [] => [] end.
Fixpoint digits (s : list Z) (v : Z) : Z * list Z := match s with c :: t => if is_digit c then digits t (v * 10 + (c - 48)) else (v, s) | [] => (v, []) end.
Definition clamp (v : Z) : Z := Z.max (- 2 ^ 63) (Z.min (2 ^ 63 - 1) v).
Definition strtol (s : list Z) : Z * list Z :=
  let t := skip_space s in
  let '(neg, t) := match t with 45 :: u => (true, u) | 43 :: u => (false, u) | _ => (false, t) end in
  match t with
  | c :: _ => if is_digit c then let '(v, r) := digits t 0 in (clamp (if neg then - v else v), r) else (0, s)
  | [] => (0, s)
  end.
(* Conversion of a long to int *)
Definition as_int (v : Z) : Z := let w := v mod 2 ^ 32 in if w <? 2 ^ 31 then w else w - 2 ^ 32.
Definition atoi (s : list Z) : Z := as_int (fst (strtol s)).

(* libmdnsd/log.c:46-68; the same names as in syslog.h *)
Definition lower (c : Z) : Z := if (65 <=? c) && (c <=? 90) then c + 32 else c.
Definition LOG_NONE : Z := 16.
Definition prioritynames : list (list Z * Z) :=
  [([97; 108; 101; 114; 116], 1); ([99; 114; 105; 116], 2); ([100; 101; 98; 117; 103], 7); ([101; 109; 101; 114; 103], 0); ([101; 114; 114], 3); ([101; 114; 114; 111; 114], 3);
   ([105; 110; 102; 111], 6); ([110; 111; 110; 101], LOG_NONE); ([110; 111; 116; 105; 99; 101], 5); ([112; 97; 110; 105; 99], 0); ([119; 97; 114; 110], 4); ([119; 97; 114; 110; 105; 110; 103], 4)].
(* log.c:73-97 mdnsd_log_level: what is returned and the level from then on.
   strncasecmp over the longer of both lengths is equality but for case. *)
Definition mdnsd_log_level (loglevel : Z) (level : list Z) : Z * Z :=
  let lvl := match find (fun p => bytes_eqb (map lower (fst p)) (map lower level)) prioritynames with Some p => snd p | None => -1 end in
  let lvl := if lvl =? -1 then atoi level else lvl in
  (lvl, if 0 <=? lvl then lvl else loglevel).
