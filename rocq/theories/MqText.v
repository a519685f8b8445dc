(* Model of the lines mquery prints for answers: type2str, the formats of ans in
   src/mquery.c. *)
From Coq Require Import String Ascii.
From Verif Require Import Base Lib Wire Rec Conf Mquery.

(* The characters of a string literal of C *)
Definition lit (s : string) : list Z := map (fun c => Z.of_nat (nat_of_ascii c)) (list_ascii_of_string s).
Arguments lit s%string_scope.
(* printf's %d *)
Definition fmt_d (n : Z) : list Z := if n <? 0 then 45 :: dec (- n) else dec n.

(* mquery.c:164-199; snprintf cuts like strlcpy.  TR is what the code has. *)
Definition type2str (type : Z) : list Z :=
  if type =? QTYPE_A then lit "A (1)"
  else if type =? QTYPE_NS then lit "NS (2)"
  else if type =? QTYPE_CNAME then lit "CNAME (5)"
  else if type =? QTYPE_PTR then lit "TR (12)"
  else if type =? QTYPE_TXT then lit "TXT (16)"
  else if type =? QTYPE_AAAA then lit "AAAA (28)"
  else if type =? QTYPE_SRV then lit "SRV (33)"
  else if type =? QTYPE_ANY then lit "ANY (255)"
  else cut 20 (lit "UNKNOWN (" ++ fmt_d type ++ lit ")").

(* mquery.c:204-210: the seconds shown; time is what time(2) gives *)
Definition seconds (ttl time : Z) : Z := if ttl =? 0 then 0 else as_int (ttl - time).
(* mquery.c:227, 235, 240, 244, 248 and 252: the line for what ans prints, see Mquery.v *)
Definition text_of (p : printed) (now : Z) : list Z :=
  match p with
  | PFound name ip => lit "+ " ++ name ++ lit " (" ++ ip ++ lit ")"
  | PAddr v6 name ip => (if v6 then lit "AAAA " else lit "A ") ++ name ++ lit " for " ++ fmt_d now ++ lit " seconds to ip " ++ ip
  | PName name rdname => lit "PTR " ++ name ++ lit " for " ++ fmt_d now ++ lit " seconds to " ++ rdname
  | PSrv name rdname port => lit "SRV " ++ name ++ lit " for " ++ fmt_d now ++ lit " seconds to " ++ rdname ++ lit ":" ++ fmt_d port
  | POther type name len => type2str type ++ lit " " ++ name ++ lit " for " ++ fmt_d now ++ lit " seconds with " ++ fmt_d len ++ lit " data"
  end ++ [10].
