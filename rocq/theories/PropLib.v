(* Properties of the small libraries of the application: lib/strlcpy.c,
   libmdnsd/inet.c, src/netlink.c, the level parser of libmdnsd/log.c. *)
From Verif Require Import Base Lib SpecLib FactsLib.

(* C62 For every string, size and destination of at least that size: strlcpy
   returns the length of the string, touches nothing at or past dst[size], and
   for a size other than 0 leaves the string, cut to size-1 bytes and
   terminated, in the destination; that is the whole string iff the returned
   length is below the size. *)
Theorem C62_strlcpy : forall dst src s size, holds_string src s -> 0 <= size <= zlen dst ->
  exists dst', strlcpy dst src size = Ok (dst', zlen s) /\ zlen dst' = zlen dst /\
  (forall i, size <= i -> zget dst' i = zget dst i) /\
  (0 < size -> exists t, holds_string dst' t /\ t = firstn (Z.to_nat (size - 1)) s /\ (t = s <-> zlen s < size)).
Proof. exact strlcpy_copies. Qed.
Print Assumptions C62_strlcpy.
(* "mdns" cut to three bytes *)
Example C62_case : holds_string [109; 100; 110; 115; 0; 7] [109; 100; 110; 115] /\ strlcpy [1; 2; 3; 4; 5; 6] [109; 100; 110; 115; 0; 7] 4 = Ok ([109; 100; 110; 0; 5; 6], 4).
Proof. split; [split; [intros K; repeat (destruct K as [K|K]; [discriminate K|]); exact K|exists [7]; reflexivity]|reflexivity]. Qed.
(* A source that is no string is read to its end and beyond *)
Example C62_unterminated : strlcpy [0; 0; 0] [65; 66; 67] 2 = UB (OobRead 3).
Proof. reflexivity. Qed.

(* C63 For every socket address and port: the port set is the port read, and
   the family, the size and every other byte stay. *)
Theorem C63_port : forall ss port, zlen ss = 128 -> 0 <= port < 65536 ->
  inet_port (inet_set_port ss port) = port /\ inet_family (inet_set_port ss port) = inet_family ss /\ inet_len (inet_set_port ss port) = inet_len ss /\
  zlen (inet_set_port ss port) = 128 /\ (forall i, i <> 2 -> i <> 3 -> zget (inet_set_port ss port) i = zget ss i).
Proof. exact port_set. Qed.
Print Assumptions C63_port.
(* The wildcard address has the family and port asked for, and nothing else *)
Theorem C63_any : forall family port, 0 <= family < 65536 -> 0 <= port < 65536 ->
  let ss := inet_anyaddr family port in
  zlen ss = 128 /\ inet_family ss = family /\ inet_port ss = port /\ (forall i, 4 <= i -> zget ss i = 0).
Proof. exact anyaddr. Qed.
Print Assumptions C63_any.
Example C63_case : inet_port (inet_set_port (inet_anyaddr FAM_INET6 5353) 5454) = 5454 /\ inet_len (inet_anyaddr FAM_INET6 5353) = 28 /\ zlen (inet_anyaddr FAM_INET6 5353) = 128.
Proof. repeat split; reflexivity. Qed.

(* C71 netlink_read.  Whatever the kernel sent, in datagrams of a size that is
   a multiple of four, is read inside the buffer and in finitely many steps. *)
Theorem C71_safe_partial : forall l, Forall (fun r => match r with NlData b => zlen b mod 4 = 0 | _ => True end) l ->
  exists v, netlink_read l false = Ok v /\ (v = 0 \/ v = 1 \/ v = -1).
Proof. exact (fun l => read_ok l false). Qed.
Print Assumptions C71_safe_partial.
(* Any other size makes the count of bytes left wrap around: here one message of
   4094 bytes makes it read behind the buffer. *)
Definition odd_datagram : list Z := [254; 15; 0; 0] ++ repeat 0 (Z.to_nat 4090).
Theorem C71_safe_refuted : zlen odd_datagram = 4094 /\ netlink_read [NlData odd_datagram] false = UB (OobRead 4096).
Proof. split; vm_compute; reflexivity. Qed.
Print Assumptions C71_safe_refuted.
(* For every sequence of datagrams made of messages, the answer is 1 iff one of
   the messages tells of a new, changed or deleted link or address. *)
Theorem C71_tells : forall l, Forall (fun ms => Forall (fun m => 0 <= nl_type m < 65536) ms /\ zlen (nl_datagram ms) <= 4096) l ->
  exists v, netlink_read (map (fun ms => NlData (nl_datagram ms)) l) false = Ok v /\ (v = 0 \/ v = 1) /\ (v = 1 <-> exists ms m, In ms l /\ In m ms /\ tells_change m).
Proof. exact read_tells. Qed.
Print Assumptions C71_tells.
(* A datagram with a route change and, after it, a deleted address *)
Definition deladdr : list nlmsg := [mknlmsg 24 0 0 0 [1; 2; 3; 4; 5]; mknlmsg 21 0 7 0 [2; 24; 0; 0; 2; 0; 0; 0]].
Example C71_case : netlink_read [NlData (nl_datagram deladdr)] false = Ok 1 /\ netlink_read [NlData (nl_datagram (firstn 1 deladdr))] false = Ok 0 /\ zlen (nl_datagram deladdr) = 48.
Proof. repeat split; vm_compute; reflexivity. Qed.

(* C72 The level named by a word, in any case, or by a number is the one set and
   returned. *)
Theorem C72_word : forall w l s old, level_word w l -> same_word w s -> mdnsd_log_level old s = (l, l).
Proof. exact level_words. Qed.
Print Assumptions C72_word.
Theorem C72_number : forall ds old, is_dec ds -> dec_value ds < 2 ^ 31 -> mdnsd_log_level old ds = (dec_value ds, dec_value ds).
Proof. exact level_number. Qed.
Print Assumptions C72_number.
(* "DeBuG", "42" *)
Example C72_case : same_word [100; 101; 98; 117; 103] [68; 101; 66; 117; 71] /\ mdnsd_log_level 5 [68; 101; 66; 117; 71] = (7, 7) /\ mdnsd_log_level 5 [52; 50] = (42, 42).
Proof. split; [|split; reflexivity]. repeat constructor; unfold nocase; lia. Qed.
(* Any other word is not rejected but silences all but emergencies: "verbose" *)
Theorem C72_refuted : exists s, (forall w l, level_word w l -> ~ same_word w s) /\ (forall c, In c s -> ~ 48 <= c <= 57) /\ forall old, mdnsd_log_level old s = (0, 0).
Proof.
  exists [118; 101; 114; 98; 111; 115; 101]. split; [|split; [|reflexivity]].
  - intros w l W S. apply word_lower in S. unfold level_word in W. cbn [In] in W.
    repeat (destruct W as [W|W]; [inversion W; subst; discriminate S|]). exact W.
  - intros c I. cbn [In] in I. lia.
Qed.
Print Assumptions C72_refuted.
