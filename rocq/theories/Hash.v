(* Model of the string hash, libmdnsd/mdnsd.c:118-132 _namehash and the
   identical libmdnsd/xht.c:55-70 _xhter.  unsigned long has 64 bits. *)
From Verif Require Import Base.

(* One iteration of the loop on character c (an unsigned char). *)
Definition hash_step (h c : Z) : Z :=
  let h := (Z.shiftl h 4 + c) mod 2 ^ 64 in
  let g := Z.land h 4026531840 (* 0xF0000000 *) in
  let h := if negb (g =? 0) then Z.lxor h (Z.shiftr g 24) else h in
  Z.land h (Z.lnot g mod 2 ^ 64).

(* (int)h: the low 32 bits as a signed integer. *)
Definition to_int (h : Z) : Z :=
  let l := h mod 2 ^ 32 in if l <? 2 ^ 31 then l else l - 2 ^ 32.

(* The string is given without its terminator. *)
Definition namehash (s : list Z) : Z := to_int (fold_left hash_step s 0).

(* C's % on int: truncated division. *)
Definition bucket_index (s : list Z) (prime : Z) : Z := Z.rem (namehash s) prime.

Definition SPRIME : Z := 109.    (* mdnsd.c:40 *)
Definition LPRIME : Z := 1009.   (* mdnsd.c:41 *)
