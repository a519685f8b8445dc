(* Model of libmdnsd/sdtxt.c.  Values in a table are used as C strings.
   malloc succeeds; lengths do not overflow int. *)
From Verif Require Import Base Hash Xht.

(* sdtxt.c:36-47 *)
Definition sd2txt_len (key val : list Z) : Z :=
  match cstr val with
  | [] => zlen key
  | v => zlen key + zlen v + 1
  end.

(* sdtxt.c:49-54, folded over the walk *)
Definition sd2txt_count (l : list (list Z * value)) : Z :=
  fold_left (fun n kv => n + (sd2txt_len (fst kv) (snd kv) + 1)) l 0.

(* Store into the allocated buffer at the write pointer. *)
Definition put (buf : list Z) (p : Z) (d : list Z) : res (list Z * Z) :=
  if (0 <=? p) && (p + zlen d <=? zlen buf)
  then Ok (firstn (Z.to_nat p) buf ++ d ++ skipn (Z.to_nat (p + zlen d)) buf, p + zlen d)
  else UB (OobWrite p).

(* sdtxt.c:56-73 *)
Definition sd2txt_write (buf : list Z) (p : Z) (key val : list Z) : res (list Z * Z) :=
  '(buf, p) <- put buf p [sd2txt_len key val mod 256];;
  '(buf, p) <- put buf p key;;
  match cstr val with
  | [] => Ok (buf, p)
  | v => '(buf, p) <- put buf p [61];; put buf p v
  end.

Fixpoint sd2txt_writes (buf : list Z) (p : Z) (l : list (list Z * value)) : res (list Z * Z) :=
  match l with
  | [] => Ok (buf, p)
  | (k, v) :: r => '(buf, p) <- sd2txt_write buf p k v;; sd2txt_writes buf p r
  end.

(* sdtxt.c:75-94: the returned buffer, with *len = its size.  Unwritten bytes
   of the buffer hold -1. *)
Definition sd2txt (h : xht) : res (list Z) :=
  let n := sd2txt_count (xht_walk h) in
  if n =? 0 then Ok [0]
  else
    '(buf, _) <- sd2txt_writes (repeat (-1) (Z.to_nat n)) 0 (xht_walk h);;
    Ok buf.

(* Reads of the caller's buffer. *)
Definition rd8 (txt : list Z) (p : Z) : res Z :=
  if (0 <=? p) && (p <? zlen txt) then Ok (zget txt p) else UB (OobRead p).
Definition rdblk (txt : list Z) (p n : Z) : res (list Z) :=
  if (0 <=? p) && (p + n <=? zlen txt) then Ok (firstn (Z.to_nat n) (skipn (Z.to_nat p) txt)) else UB (OobRead p).

(* strchr(key, '='), splitting the C string in place *)
Fixpoint split_eq (s : list Z) : list Z * list Z :=
  match s with
  | [] => ([], [])
  | c :: r => if c =? 61 then ([], r) else let '(k, v) := split_eq r in (c :: k, v)
  end.

(* sdtxt.c:106-123; key[] has 256 bytes *)
Fixpoint txt2sd_loop (fuel : nat) (txt : list Z) (p len : Z) (h : xht) : res xht :=
  match fuel with
  | O => Hang
  | S fuel =>
      if len <=? 0 then Ok h
      else
        c <- rd8 txt p;;
        if c <? len then
          if c =? 0 then Ok h
          else
            blk <- rdblk txt (p + 1) c;;
            if 256 <=? c then UB (OobWrite c)
            else
              let '(k, v) := split_eq (cstr blk) in
              txt2sd_loop fuel txt (p + c + 1) (len - (c + 1)) (xht_store h k (length k) (Some v) (length v))
        else Ok h
  end.

(* sdtxt.c:96-126; None is a NULL result *)
Definition txt2sd (txt : list Z) (len : Z) : res (option xht) :=
  if len =? 0 then Ok None
  else
    c <- rd8 txt 0;;
    if c =? 0 then Ok None
    else h <- txt2sd_loop (S (Z.to_nat len)) txt 0 len (xht_new 23);; Ok (Some h).

(* xht_get (xht.c:174) on the result; it returns NULL for a NULL table. *)
Definition get_opt (h : option xht) (k : list Z) : option value :=
  match h with None => None | Some h => xht_get h k end.
