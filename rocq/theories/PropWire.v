(* Property theorems C01-C10: the wire format, libmdnsd/1035.c.
   Specifications: SpecDns.v.  Model: Wire.v, WireCalls.v. *)
From Verif Require Import Base Lemmas SpecDns Wire WireSafe WireNames WireCalls WireCallsSpec WireRound WireSize WireTight WireFacts WireFindings.

(* ---- C01 ---- *)
Theorem C01_short_roundtrip : forall b p v, bytebuf b -> 0 <= p -> p + 2 <= b_size b -> 0 <= v < 65536 ->
  short2net v = [v / 256; v mod 256] /\
  (region (b_at b) p 2 = short2net v -> net2short b p = Ok (v, p + 2)).
Proof. exact net_short_round. Qed.
Print Assumptions C01_short_roundtrip.

Theorem C01_long_roundtrip : forall b p v, bytebuf b -> 0 <= p -> p + 4 <= b_size b -> 0 <= v ->
  let w := v mod 4294967296 in
  long2net v = [w / 16777216; w / 65536 mod 256; w / 256 mod 256; w mod 256] /\
  (region (b_at b) p 4 = long2net v -> net2long b p = Ok (w, p + 4)).
Proof. exact net_long_round. Qed.
Print Assumptions C01_long_roundtrip.

Example C01_case : net2long (buf_of 10 (7 :: long2net 4026531853)) 1 = Ok (4026531853, 5).
Proof.
  apply (C01_long_roundtrip (buf_of 10 (7 :: long2net 4026531853)) 1 4026531853); try (cbn; lia).
  - apply buf_of_bytes. vm_compute. reflexivity.
  - reflexivity.
Qed.

(* ---- C02 ---- *)
(* The buffer may continue with arbitrary bytes after the packet.  65536 bytes
   is the size of the message block including its padding byte. *)
Theorem C02_roundtrip : forall tld qs an ns ar id h b psz,
  let rrs := an ++ ns ++ ar in
  let m := run (message_calls qs an ns ar) in
  Forall legal_quest qs -> Forall legal_rr rrs ->
  (forall n, In n (map qname qs ++ flat_map rr_names rrs) -> legal_name n /\ ends_only_in tld n) ->
  wire_size qs rrs <= 4096 ->
  u16 id -> legal_header h ->
  bytebuf b -> packet_len m <= b_size b -> 65536 <= psz ->
  (forall i, 0 <= i < packet_len m -> b_at b i = zget (message_packet m id h) i) ->
  exists s, message_parse b psz =
    Ok (mkmessage id h (map parsed_quest qs) (map parsed_rr an) (map parsed_rr ns) (map parsed_rr ar), s, packet_len m).
Proof. exact message_roundtrip_small. Qed.
Print Assumptions C02_roundtrip.

(* Larger messages, as long as pointers and the unpacked form fit. *)
Theorem C02_roundtrip_large : forall tld qs an ns ar id h b psz,
  let rrs := an ++ ns ++ ar in
  let m := run (message_calls qs an ns ar) in
  Forall legal_quest qs -> Forall legal_rr rrs ->
  (forall n, In n (map qname qs ++ flat_map rr_names rrs) -> legal_name n /\ ends_only_in tld n) ->
  unpacked_size qs rrs <= 65535 ->
  packet_len m <= 16384 -> (forall pre d post, message_calls qs an ns ar = pre ++ CRaw d :: post -> packet_len (run pre) + len d <= 4096) ->
  u16 id -> legal_header h ->
  bytebuf b -> packet_len m <= b_size b -> 65536 <= psz ->
  (forall i, 0 <= i < packet_len m -> b_at b i = zget (message_packet m id h) i) ->
  exists s, message_parse b psz =
    Ok (mkmessage id h (map parsed_quest qs) (map parsed_rr an) (map parsed_rr ns) (map parsed_rr ar), s, packet_len m).
Proof. exact message_roundtrip. Qed.
Print Assumptions C02_roundtrip_large.

(* However much compression saved, packets of up to 1435 bytes. *)
Theorem C02_roundtrip_packet : forall tld qs an ns ar id h b psz,
  let rrs := an ++ ns ++ ar in
  let m := run (message_calls qs an ns ar) in
  Forall legal_quest qs -> Forall legal_rr rrs ->
  (forall n, In n (map qname qs ++ flat_map rr_names rrs) -> legal_name n /\ ends_only_in tld n) ->
  packet_len m <= 1435 -> (forall r d, In r rrs -> data r = RRaw d -> len d <= 2660) ->
  u16 id -> legal_header h ->
  bytebuf b -> packet_len m <= b_size b -> 65536 <= psz ->
  (forall i, 0 <= i < packet_len m -> b_at b i = zget (message_packet m id h) i) ->
  exists s, message_parse b psz =
    Ok (mkmessage id h (map parsed_quest qs) (map parsed_rr an) (map parsed_rr ns) (map parsed_rr ar), s, packet_len m).
Proof. exact message_roundtrip_tight. Qed.
Print Assumptions C02_roundtrip_packet.

(* A service announcement: PTR, SRV, TXT and A records sharing names. *)
Definition lab_http : list Z := [95;104;116;116;112].
Definition lab_tcp : list Z := [95;116;99;112].
Definition ex_type : list (list Z) := [lab_http; lab_tcp; local].
Definition ex_inst : list (list Z) := [foo; lab_http; lab_tcp; local].
Definition ex_host : list (list Z) := [[104;49]; local].
Definition ex_qs : list quest := [mkquest ex_type 12 1].
Definition ex_an : list rr := [mkrr ex_type 12 1 120 (RName ex_inst)].
Definition ex_ar : list rr :=
  [mkrr ex_inst 33 32769 120 (RSrv 0 0 80 ex_host); mkrr ex_inst 16 32769 4500 (RRaw [3;97;61;98]); mkrr ex_host 1 32769 120 (RAddr4 [10;0;0;1])].
Definition ex_msg : enc := run (message_calls ex_qs ex_an [] ex_ar).
Definition ex_hdr : header := mkheader 1 0 1 0 0 0 0 0.

Lemma legal_name_dec : forall n, (match n with [] => false | _ => true end)
  && forallb (fun l => (1 <=? len l) && (len l <=? 63) && forallb (fun c => (0 <? c) && (c <? 256) && negb (c =? 46)) l) n
  && (len (dotted n) <=? 255) = true -> legal_name n.
Proof.
  intros n H. repeat (apply andb_prop in H; destruct H as [H ?]). split; [intros ->; discriminate|]. split; [|lia].
  rewrite Forall_forall. rewrite forallb_forall in *. intros l Hl. specialize (H1 l Hl). repeat (apply andb_prop in H1; destruct H1 as [H1 ?]).
  split; [lia|]. rewrite Forall_forall. rewrite forallb_forall in *. intros c Hc. specialize (H2 c Hc). lia.
Qed.

Lemma ex_local : forall n, In n (map qname ex_qs ++ flat_map rr_names (ex_an ++ [] ++ ex_ar)) -> legal_name n /\ ends_only_in local n.
Proof.
  intros n Hn. cbn in Hn.
  assert (E1 : ends_only_in local ex_type) by (exists [lab_http; lab_tcp]; split; [reflexivity|cbn; intuition discriminate]).
  assert (E2 : ends_only_in local ex_inst) by (exists [foo; lab_http; lab_tcp]; split; [reflexivity|cbn; intuition discriminate]).
  assert (E3 : ends_only_in local ex_host) by (exists [[104;49]]; split; [reflexivity|cbn; intuition discriminate]).
  repeat (destruct Hn as [<-|Hn]; [split; [apply legal_name_dec; vm_compute; reflexivity|first [exact E1|exact E2|exact E3]]|]).
  destruct Hn.
Qed.

Example C02_case : exists s, message_parse (buf_of 9000 (message_packet ex_msg 7 ex_hdr)) 65536 =
  Ok (mkmessage 7 ex_hdr (map parsed_quest ex_qs) (map parsed_rr ex_an) [] (map parsed_rr ex_ar), s, 118).
Proof.
  assert (Hp : packet_len ex_msg = 118) by (vm_compute; reflexivity).
  destruct (C02_roundtrip local ex_qs ex_an [] ex_ar 7 ex_hdr (buf_of 9000 (message_packet ex_msg 7 ex_hdr)) 65536) as [s E];
    fold ex_msg; rewrite ?Hp; try lia; try (unfold u16; lia).
  - repeat constructor; cbn; lia.
  - repeat constructor; cbn; try lia; tauto.
  - exact ex_local.
  - unfold wire_size. vm_compute. congruence.
  - repeat split; cbn; unfold bit; lia.
  - apply buf_of_bytes. vm_compute. reflexivity.
  - cbn. lia.
  - intros i Hi. reflexivity.
  - exists s. rewrite E. fold ex_msg. rewrite Hp. reflexivity.
Qed.

(* Thirty pointers with long names: over 14000 bytes without compression, 671 with it *)
Definition deep : dname := [repeat 97 60; repeat 98 60; repeat 99 60; repeat 100 50; local].
Definition pointers : list rr := repeat (mkrr deep 12 1 120 (RName deep)) 30.
Example C02_case_packet : exists s, 4096 < wire_size [] pointers /\ message_parse (buf_of 9000 (message_packet (run (message_calls [] pointers [] [])) 7 ex_hdr)) 65536 =
  Ok (mkmessage 7 ex_hdr [] (map parsed_rr pointers) [] [], s, packet_len (run (message_calls [] pointers [] []))).
Proof.
  assert (Hp : packet_len (run (message_calls [] pointers [] [])) = 671) by (vm_compute; reflexivity).
  destruct (C02_roundtrip_packet local [] pointers [] [] 7 ex_hdr (buf_of 9000 (message_packet (run (message_calls [] pointers [] [])) 7 ex_hdr)) 65536) as [s E];
    rewrite ?Hp; try lia; try (unfold u16; lia).
  - constructor.
  - rewrite !app_nil_r. apply Forall_forall. intros r I. apply repeat_spec in I. subst r. repeat split; cbn; try lia; tauto.
  - intros n Hn. assert (n = deep) as ->.
    { rewrite !app_nil_r in Hn. cbn [map app] in Hn. apply in_flat_map in Hn as (r & Ir & Hn). apply repeat_spec in Ir. subst r. cbn in Hn. intuition. }
    split; [apply legal_name_dec; vm_compute; reflexivity|]. exists (removelast deep). split; [reflexivity|]. cbn. intuition discriminate.
  - intros r d I Ed. rewrite !app_nil_r in I. apply repeat_spec in I. subst r. discriminate Ed.
  - repeat split; cbn; unfold bit; lia.
  - apply buf_of_bytes. vm_compute. reflexivity.
  - cbn. lia.
  - intros i Hi. cbn [buf_of b_at]. reflexivity.
  - exists s. split; [vm_compute; reflexivity|]. rewrite Hp in E. exact E.
Qed.

(* ---- C03 ---- *)
Theorem C03_compression_partial : forall calls id h, Forall legal_call calls ->
  (forall a b, In a (call_names calls) -> In b (call_names calls) -> ~ clash a b) ->
  packet_len (run calls) <= 16384 ->
  forall pre c post n, calls = pre ++ c :: post -> call_name c = Some n ->
  name_at (zget (message_packet (run calls) id h)) (packet_len (run calls))
    (packet_len (run pre) + bytes_before c) n (packet_len (run (pre ++ [c])) - bytes_after c).
Proof. exact (fun calls id h H1 H2 H3 pre c post n H4 H5 => simple_name_at _ _ _ _ _ _ (encoded_names calls id h H1 H2 H3 pre c post n H4 H5)). Qed.
Print Assumptions C03_compression_partial.

Example C03_case : name_at (zget (message_packet ex_msg 7 ex_hdr)) 118 34 ex_type 36.
Proof.
  assert (Hp : packet_len ex_msg = 118) by (vm_compute; reflexivity).
  pose proof (C03_compression_partial (message_calls ex_qs ex_an [] ex_ar) 7 ex_hdr) as H. fold ex_msg in H. rewrite Hp in H.
  assert (Hl : forall n, In n (call_names (message_calls ex_qs ex_an [] ex_ar)) -> legal_name n /\ ends_only_in local n).
  { intros n Hn. apply ex_local. cbn in Hn |- *. tauto. }
  assert (Hlc : Forall legal_call (message_calls ex_qs ex_an [] ex_ar)).
  { cbn. repeat (apply Forall_cons; [split; [first [exact I|split; [repeat constructor; cbn; lia|cbn; lia]]|first [exact I|apply legal_name_dec; vm_compute; reflexivity]]|]). apply Forall_nil. }
  apply (H Hlc
         (fun a b Ha Hb => no_clash local a b (proj2 (Hl a Ha)) (proj2 (Hl b Hb)))
         ltac:(lia) [quest_call (mkquest ex_type 12 1)] (CRr An true ex_type 12 1 120)
         [data_call (RName ex_inst); CRr Ar true ex_inst 33 32769 120; CSrv 0 0 80 true ex_host; CRr Ar true ex_inst 16 32769 4500; CRaw [3;97;61;98]; CRr Ar true ex_host 1 32769 120; CIp4 [10;0;0;1]]
         ex_type eq_refl eq_refl).
Qed.

Theorem C03_refuted : exists calls pre c n n' e,
  Forall legal_call calls /\ calls = pre ++ [c] /\ call_name c = Some n /\ n' <> n /\
  name_at (zget (message_packet (run calls) 0 (mkheader 0 0 0 0 0 0 0 0))) (packet_len (run calls)) (packet_len (run pre)) n' e.
Proof.
  exists bad_calls, (firstn 2 bad_calls), (CQd true [foo] 1 1), [foo], [foo; local], 37.
  split; [repeat (apply Forall_cons; [split; [exact I|apply legal_name_dec; vm_compute; reflexivity]|]); apply Forall_nil|].
  split; [reflexivity|]. split; [reflexivity|]. split; [discriminate|]. fold bad_packet.
  replace (packet_len (run bad_calls)) with (zlen bad_packet) by (vm_compute; reflexivity).
  replace (packet_len (run (firstn 2 bad_calls))) with 35 by (vm_compute; reflexivity). exact bad_packet_name.
Qed.
Print Assumptions C03_refuted.
Theorem C03_decoding_unique : forall get N o n e, name_at get N o n e -> forall n' e', name_at get N o n' e' -> n = n' /\ e = e'.
Proof. exact name_at_det. Qed.
Print Assumptions C03_decoding_unique.

(* ---- C04 ---- *)
Theorem C04_terminates : forall b psz, bytebuf b -> 65536 <= psz -> message_parse b psz <> Hang.
Proof. exact parse_no_hang. Qed.
Print Assumptions C04_terminates.

(* a pointer to itself is rejected *)
Example C04_case : bytebuf (buf_of 65536 (hdr 1 0 ++ [192;12;0;1;0;1])) /\
  message_parse (buf_of 65536 (hdr 1 0 ++ [192;12;0;1;0;1])) 65536 = Rej.
Proof. split; [apply buf_of_bytes|]; vm_compute; reflexivity. Qed.

(* ---- C05 ---- *)
(* psz is the size of the message block.  ps_log lists the (offset, size) of
   every object placed in it. *)
Theorem C05_writes_partial : forall b psz, bytebuf b -> 65536 <= psz ->
  (forall o, message_parse b psz <> UB (OobWrite o)) /\
  (forall m s p, message_parse b psz = Ok (m, s, p) ->
     ps_len s <= 65536 /\ Forall (fun x => 0 <= fst x /\ 0 <= snd x /\ fst x + snd x <= 65536) (ps_log s)).
Proof. exact parse_no_oob_write. Qed.
Print Assumptions C05_writes_partial.
Example C05_case : bytebuf (buf_of 65536 (message_packet ex_msg 7 ex_hdr)) /\
  match message_parse (buf_of 65536 (message_packet ex_msg 7 ex_hdr)) 65536 with Ok (_, s, _) => zlen (ps_log s) = 9 /\ 0 < ps_len s | _ => False end.
Proof. split; [apply buf_of_bytes; vm_compute; reflexivity|]. vm_compute. split; reflexivity. Qed.

(* For the declared size of the array, MAX_PACKET_LEN = 65535, a store goes
   one byte past the end. *)
Theorem C05_refuted : exists b, bytebuf b /\ message_parse b 65535 = UB (OobWrite 65535).
Proof. exists endwrite. exact endwrite_ub. Qed.
Print Assumptions C05_refuted.

(* ---- C06 ---- *)
Theorem C06_read_bound_partial : forall b psz o, bytebuf b -> 65536 <= psz -> 90117 <= b_size b -> message_parse b psz <> UB (OobRead o).
Proof. exact parse_read_bound. Qed.
Print Assumptions C06_read_bound_partial.
(* The packet of C06_refuted, in such a buffer *)
Example C06_case : bytebuf (buf_of 90117 overread) /\ b_size (buf_of 90117 overread) = 90117 /\ message_parse (buf_of 90117 overread) 65536 = Rej.
Proof. split; [apply buf_of_bytes; vm_compute; reflexivity|]. split; [reflexivity|]. vm_compute. reflexivity. Qed.

Theorem C06_refuted : exists packet, zlen packet = 614 /\ message_parse (buf_of 65536 packet) 65536 = UB (OobRead 65536).
Proof. exists overread. exact overread_ub. Qed.
Print Assumptions C06_refuted.

(* ---- C07 ---- *)
Theorem C07_disjoint : forall b psz m s p, bytebuf b -> 65536 <= psz -> message_parse b psz = Ok (m, s, p) ->
  ForallOrdPairs disjoint (ps_log s) /\
  Forall (fun q => zlen (q_name q) <= 256) (m_qd m) /\
  Forall rr_names_ok (m_an m ++ m_ns m ++ m_ar m).
Proof. exact parse_disjoint. Qed.
Print Assumptions C07_disjoint.

Example C07_case : exists m s p, message_parse (buf_of 9000 (message_packet ex_msg 7 ex_hdr)) 65536 = Ok (m, s, p) /\ zlen (ps_log s) = 9.
Proof. do 3 eexists. split; [vm_compute; reflexivity|vm_compute; reflexivity]. Qed.

(* ---- C08 ---- *)
Theorem C08_header : forall m id h b psz msg s p,
  u16 id -> legal_header h -> u16 (e_qd m) -> u16 (e_an m) -> u16 (e_ns m) -> u16 (e_ar m) -> bytebuf b ->
  (forall i, 0 <= i < 12 -> b_at b i = zget (message_packet m id h) i) ->
  message_parse b psz = Ok (msg, s, p) ->
  m_id msg = id /\ m_header msg = h /\
  zlen (m_qd msg) = e_qd m /\ zlen (m_an msg) = e_an m /\ zlen (m_ns msg) = e_ns m /\ zlen (m_ar msg) = e_ar m.
Proof. exact header_survives. Qed.
Print Assumptions C08_header.

Example C08_case : legal_header (mkheader 1 15 1 1 1 1 7 15) /\
  exists m s p, message_parse (buf_of 9000 (message_packet ex_msg 65535 (mkheader 1 15 1 1 1 1 7 15))) 65536 = Ok (m, s, p).
Proof. split; [repeat split; cbn; unfold bit; lia|]. do 3 eexists. vm_compute. reflexivity. Qed.

(* ---- C09 ---- *)
(* name_at_simple: RFC 1035 encoding in which pointers designate labels at
   offsets of at most lim.  ps_len s: bytes of the message block in use. *)
Theorem C09_decoder_partial : forall b psz s slot p N lim n e,
  bytebuf b -> N <= b_size b -> N <= 65536 -> 65536 <= psz -> 0 <= slot -> slot + 8 <= psz ->
  name_at_simple (b_at b) N lim p n e -> lim <= ps_len s -> lim <= 4095 ->
  Forall (Forall (fun c => c <> 0)) n ->
  len (dotted n) <= 256 -> 0 <= ps_len s -> ps_len s + len (dotted n) < 65535 ->
  exists s', label_parse b psz s slot p = Ok (s', e, dotted n).
Proof. exact name_decodes. Qed.
Print Assumptions C09_decoder_partial.

Example C09_case : exists s', label_parse (buf_of 65536 bad_packet) 65536 (mkpst 48 [] []) 0 35 = Ok (s', 37, dotted [foo; local]).
Proof.
  apply C09_decoder_partial with (N := 41) (lim := 25); cbn [b_size ps_len buf_of]; try lia.
  - apply buf_of_bytes. vm_compute. reflexivity.
  - change 37 with (35 + 2). apply ns_ptr with (t := 25) (e := 31); try (vm_compute; congruence); try (vm_compute; split; congruence).
    apply ns_label; try (vm_compute; congruence); [vm_compute; split; congruence|].
    change (25 + 1 + len foo) with 29. change 31 with (29 + 2). apply ns_ptr with (t := 14) (e := 21); try (vm_compute; congruence); try (vm_compute; split; congruence).
    apply ns_label; try (vm_compute; congruence); [vm_compute; split; congruence|].
    change 21 with (20 + 1). change (14 + 1 + len local) with 20. apply ns_root; [vm_compute; split; congruence|reflexivity].
  - repeat constructor; discriminate.
  - vm_compute. congruence.
  - replace (len (dotted [foo; local])) with 10 by reflexivity. lia.
Qed.

(* A pointer to the root label is decoded wrongly ... *)
Theorem C09_refuted : exists packet o n e, name_at (zget packet) (zlen packet) o n e /\
  exists m s p q1 q2, message_parse (buf_of 65536 packet) 65536 = Ok (m, s, p) /\ m_qd m = [q1; q2] /\ q_name q2 = dotted n ++ [46].
Proof. exists ptr_root, 17, [foo], 23. exact (conj ptr_root_rfc ptr_root_parsed). Qed.
Print Assumptions C09_refuted.

(* ... and a pointer to a pointer makes the parser refuse the packet. *)
Theorem C09_refuted_chain : exists packet o n e, name_at (zget packet) (zlen packet) o n e /\ message_parse (buf_of 65536 packet) 65536 = Rej.
Proof. exists ptr_ptr, 27, [foo], 29. exact (conj ptr_ptr_rfc ptr_ptr_rejected). Qed.
Print Assumptions C09_refuted_chain.

(* ---- C10 ---- *)
(* e is where the owner name ends; type, class, ttl and rdlength take ten
   bytes. *)
Theorem C10_extent_partial : forall b psz s slot p s' p' r, bytebuf b ->
  rr_parse1 b psz s slot p = Ok (s', p', r) ->
  exists s1 e, label_parse b psz s slot p = Ok (s1, e, rr_name r) /\
    let d := e + 10 in let rdl := b_at b (e + 8) * 256 + b_at b (e + 9) in
    rr_type r = b_at b e * 256 + b_at b (e + 1) /\
    (natural_length (b_at b) (b_size b) (rr_type r) d rdl -> p' = d + rdl).
Proof. exact record_extent. Qed.
Print Assumptions C10_extent_partial.

Example C10_case : exists s p r, rr_parse1 (buf_of 65536 (hdr 0 1 ++ [3] ++ foo ++ [0; 0;1; 0;1; 0;0;0;120; 0;4; 10;0;0;1])) 65536 (mkpst 64 [] []) 0 12 = Ok (s, p, r) /\
  rr_type r = 1 /\ p = 31 /\ natural_length (zget (hdr 0 1 ++ [3] ++ foo ++ [0; 0;1; 0;1; 0;0;0;120; 0;4; 10;0;0;1])) 65536 1 27 4.
Proof.
  do 3 eexists. split; [vm_compute; reflexivity|]. split; [reflexivity|]. split; [reflexivity|].
  split; [reflexivity|]. split; [discriminate|]. split; [cbn; intuition discriminate|discriminate].
Qed.

(* An A record announcing 5 bytes: the parser continues after 4. *)
Theorem C10_refuted : exists packet s p r,
  rr_parse1 (buf_of 65536 packet) 65536 (mkpst 64 [] []) 0 12 = Ok (s, p, r) /\ rr_type r = 1 /\
  zget packet 25 * 256 + zget packet 26 = 5 /\ p = 27 + 4.
Proof. exists long_a. exact long_a_parsed. Qed.
Print Assumptions C10_refuted.
