(* Concrete packets on which the wire code does not do what a user would
   expect; and that RFC 1035 decoding is deterministic. *)
From Verif Require Import Base Lemmas SpecDns Wire WireSafe WireNames WireCalls WireRound.

(* A packet followed by zeros, as in the cleared buffer of process_in,
   libmdnsd/mdnsd.c:1919-1934. *)
Definition buf_of (size : Z) (l : list Z) : buffer := mkbuffer size (zget l).

Lemma buf_of_bytes : forall size l, forallb (fun c => (0 <=? c) && (c <? 256)) l = true -> bytebuf (buf_of size l).
Proof.
  intros size l H o. apply zget_byte. unfold bytes. rewrite Forall_forall. rewrite forallb_forall in H.
  intros x Hx. specialize (H x Hx). unfold is_byte. lia.
Qed.

Lemma name_at_det : forall get N o n e, name_at get N o n e -> forall n' e', name_at get N o n' e' -> n = n' /\ e = e'.
Proof.
  induction 1 as [o Ho Hg|o l n e H0 H1 H2 H3 H4 H5 IH|o t n e H0 H1 H2 H3 Ht Hlt H5 IH]; intros n' e' H'.
  - inversion H'; subst; try (split; reflexivity); lia.
  - inversion H' as [? ? Hg|? l' n1 ? G0 G1 G2 G3 G4 G5|? t n1 ? G0 G1 G2 G3 Gt Glt G5]; subst; try lia.
    assert (El : length l = length l') by (unfold len in *; lia). rewrite El in H4. rewrite H4 in G4. subst l'.
    destruct (IH _ _ G5) as [-> ->]. split; reflexivity.
  - inversion H' as [? ? Hg|? l' n1 ? G0 G1 G2 G3 G4 G5|? t' n1 ? G0 G1 G2 G3 Gt Glt G5]; subst; try lia.
    destruct (IH _ _ G5) as [-> _]. split; reflexivity.
Qed.

Definition hdr (qd an : Z) : list Z := [0;0;132;0;0;qd;0;an;0;0;0;0].

(* C06: three questions with names of three 63-byte labels push the parser's
   block beyond the 12 + ... bytes, so that the second record's name can start
   at the very end of the receive buffer: the first record announces data up
   to the last byte. *)
Definition long_name : list Z := (63 :: repeat 97 63) ++ (63 :: repeat 98 63) ++ (63 :: repeat 99 63) ++ [0].
Definition long_q : list Z := long_name ++ [0;16;0;1].
Definition overread0 : list Z := hdr 3 2 ++ long_q ++ long_q ++ long_q ++ [0; 0;16; 0;1; 0;0;0;120].
Definition overread : list Z := overread0 ++ short2net (65535 - (zlen overread0 + 2)).

Lemma overread_ub : zlen overread = 614 /\ message_parse (buf_of 65536 overread) 65536 = UB (OobRead 65536).
Proof. split; vm_compute; reflexivity. Qed.

(* C05: record 1 has 65402 bytes of data, so that the name of record 2 ends
   exactly at the end of the declared array and its terminator is stored one
   byte further. *)
Definition endwrite : buffer := mkbuffer READ_BOUND (fun i =>
  if i <? 23 then zget (hdr 0 2 ++ [0; 0;16; 0;1; 0;0;0;0; 255;122]) i
  else if (65425 <=? i) && (i <? 65430) then zget [3;97;98;99;0] (i - 65425) else 0).

Lemma endwrite_ub : bytebuf endwrite /\ message_parse endwrite 65535 = UB (OobWrite 65535).
Proof.
  split; [|vm_compute; reflexivity].
  intros o. unfold endwrite. cbn [b_at]. destruct (o <? 23).
  - apply (buf_of_bytes 0). reflexivity.
  - destruct (_ && _); [apply (buf_of_bytes 0); reflexivity|unfold is_byte; lia].
Qed.

(* C09: a compression pointer to the root label. *)
Definition foo : list Z := [102;111;111].
Definition ptr_root : list Z := hdr 2 0 ++ [0; 0;16; 0;1] ++ [3] ++ foo ++ [192;12; 0;16; 0;1].

Lemma ptr_root_rfc : name_at (zget ptr_root) (zlen ptr_root) 17 [foo] 23.
Proof.
  change 17 with (17 + 0) at 1. apply na_label; try (vm_compute; congruence); [vm_compute; split; congruence|].
  change (17 + 0 + 1 + len foo) with 21. change 23 with (21 + 2). apply na_ptr with (t := 12) (e := 13); try (vm_compute; congruence);
    try (vm_compute; split; congruence).
  apply na_root; [vm_compute; split; congruence|reflexivity].
Qed.

Lemma ptr_root_parsed : exists m s p q1 q2, message_parse (buf_of 65536 ptr_root) 65536 = Ok (m, s, p) /\
  m_qd m = [q1; q2] /\ q_name q2 = dotted [foo] ++ [46].
Proof. do 5 eexists. split; [vm_compute; reflexivity|]. split; reflexivity. Qed.

(* C09: a pointer to a pointer is refused. *)
Definition ptr_ptr : list Z := hdr 3 0 ++ [3] ++ foo ++ [0; 0;16; 0;1] ++ [192;12; 0;16; 0;1] ++ [192;21; 0;16; 0;1].

Lemma ptr_ptr_rfc : name_at (zget ptr_ptr) (zlen ptr_ptr) 27 [foo] 29.
Proof.
  change 29 with (27 + 2). apply na_ptr with (t := 21) (e := 23); try (vm_compute; congruence); try (vm_compute; split; congruence).
  change 23 with (21 + 2). apply na_ptr with (t := 12) (e := 17); try (vm_compute; congruence); try (vm_compute; split; congruence).
  apply na_label; try (vm_compute; congruence); [vm_compute; split; congruence|].
  change 17 with (16 + 1). change (12 + 1 + len foo) with 16. apply na_root; [vm_compute; split; congruence|reflexivity].
Qed.

Lemma ptr_ptr_rejected : message_parse (buf_of 65536 ptr_ptr) 65536 = Rej.
Proof. vm_compute. reflexivity. Qed.

(* C10: an A record announcing five bytes of data. *)
Definition long_a : list Z := hdr 0 1 ++ [3] ++ foo ++ [0; 0;1; 0;1; 0;0;0;120; 0;5; 10;0;0;1;99].
Lemma long_a_parsed : exists s p r, 
  rr_parse1 (buf_of 65536 long_a) 65536 (mkpst 64 [] []) 0 12 = Ok (s, p, r) /\ rr_type r = 1 /\
  zget long_a 25 * 256 + zget long_a 26 = 5 /\ p = 27 + 4.
Proof. do 3 eexists. split; [vm_compute; reflexivity|]. repeat split; reflexivity. Qed.

(* C03: "foo." is written as a pointer to "foo.local.". *)
Definition local : list Z := [108;111;99;97;108].
Definition bad_calls : list call := [CQd true [[120]; local] 1 1; CQd true [foo; local] 1 1; CQd true [foo] 1 1].
Definition bad_packet : list Z := message_packet (run bad_calls) 0 (mkheader 0 0 0 0 0 0 0 0).

Lemma bad_packet_name : name_at (zget bad_packet) (zlen bad_packet) 35 [foo; local] 37.
Proof.
  change 37 with (35 + 2). apply na_ptr with (t := 25) (e := 31); try (vm_compute; congruence); try (vm_compute; split; congruence).
  apply na_label; try (vm_compute; congruence); [vm_compute; split; congruence|].
  change (25 + 1 + len foo) with 29. change 31 with (29 + 2). apply na_ptr with (t := 14) (e := 21); try (vm_compute; congruence); try (vm_compute; split; congruence).
  apply na_label; try (vm_compute; congruence); [vm_compute; split; congruence|].
  change 21 with (20 + 1). change (14 + 1 + len local) with 20. apply na_root; [vm_compute; split; congruence|reflexivity].
Qed.
