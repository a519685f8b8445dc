(* Vocabulary for the properties of the small libraries of the application. *)
From Verif Require Import Base.

(* The object holds this C string: the bytes of s, none of them 0, then a 0. *)
Definition holds_string (obj s : list Z) : Prop := ~ In 0 s /\ exists rest, obj = s ++ 0 :: rest.

(* What a netlink datagram is made of, rtnetlink(7) and netlink(7): messages,
   each a header of 16 bytes (length with header, type, flags, sequence number,
   port) and a payload, padded to a multiple of 4. *)
Record nlmsg : Type := mknlmsg { nl_type : Z; nl_flags : Z; nl_seq : Z; nl_pid : Z; nl_payload : list Z }.
Definition le16 (v : Z) : list Z := [v mod 256; v / 256 mod 256].
Definition le32 (v : Z) : list Z := [v mod 256; v / 256 mod 256; v / 65536 mod 256; v / 16777216 mod 256].
Definition padded (l : list Z) : list Z := l ++ repeat 0 (Z.to_nat ((- zlen l) mod 4)).
Definition nl_bytes (m : nlmsg) : list Z :=
  le32 (16 + zlen (nl_payload m)) ++ le16 (nl_type m) ++ le16 (nl_flags m) ++ le32 (nl_seq m) ++ le32 (nl_pid m) ++ padded (nl_payload m).
Definition nl_datagram (l : list nlmsg) : list Z := flat_map nl_bytes l.
(* RTM_NEWLINK, RTM_DELLINK, RTM_NEWADDR, RTM_DELADDR *)
Definition tells_change (m : nlmsg) : Prop := In (nl_type m) [16; 17; 20; 21].

(* The level names of log.c *)
Definition level_word (w : list Z) (l : Z) : Prop :=
  In (w, l)
    [([101; 109; 101; 114; 103], 0) (* emerg *); ([112; 97; 110; 105; 99], 0) (* panic *); ([97; 108; 101; 114; 116], 1) (* alert *); ([99; 114; 105; 116], 2) (* crit *);
     ([101; 114; 114], 3) (* err *); ([101; 114; 114; 111; 114], 3) (* error *); ([119; 97; 114; 110], 4) (* warn *); ([119; 97; 114; 110; 105; 110; 103], 4) (* warning *);
     ([110; 111; 116; 105; 99; 101], 5) (* notice *); ([105; 110; 102; 111], 6) (* info *); ([100; 101; 98; 117; 103], 7) (* debug *); ([110; 111; 110; 101], 16) (* none *)].
(* Equal but for the case of letters *)
Definition nocase (c d : Z) : Prop := c = d \/ (65 <= c <= 90 /\ d = c + 32) \/ (65 <= d <= 90 /\ c = d + 32).
Definition same_word (w s : list Z) : Prop := Forall2 nocase w s.
(* Decimal digits and their value *)
Definition is_dec (ds : list Z) : Prop := ds <> [] /\ Forall (fun c => 48 <= c <= 57) ds.
Definition dec_value (ds : list Z) : Z := fold_left (fun v c => v * 10 + (c - 48)) ds 0.
