(* Facts about the wire format used by the property theorems: network
   integers (C01), parsing from buffers of any size (C04, C05), header bits
   (C08), extent of a record (C10). *)
From Verif Require Import Base Lemmas SpecDns Wire WireSafe WireNames WireEnc WireHost WireCalls WireCallsSpec WireRound.

Lemma region_seg : forall l get o, region get o (length l) = l -> seg get o l.
Proof.
  induction l as [|x l IH]; intros get o H i Hi; [rewrite zlen_nil in Hi; lia|].
  cbn [length region] in H. injection H as H1 H2. destruct (Z.eq_dec i 0) as [->|Hi0].
  - rewrite Z.add_0_r, zget_0. exact H1.
  - rewrite zget_cons by lia. rewrite zlen_cons in Hi. specialize (IH get (o + 1) H2 (i - 1) ltac:(lia)). rewrite <- IH. f_equal. lia.
Qed.

(* C01 *)
Lemma net_short_round : forall b p v, bytebuf b -> 0 <= p -> p + 2 <= b_size b -> 0 <= v < 65536 ->
  short2net v = [v / 256; v mod 256] /\
  (region (b_at b) p 2 = short2net v -> net2short b p = Ok (v, p + 2)).
Proof.
  intros b p v Hb Hp Hp2 Hv. split.
  - rewrite short2net_val. f_equal. rewrite Z.mod_small by lia. reflexivity.
  - intros Hr. apply net2short_seg; try assumption. apply region_seg. rewrite <- Hr at 2. rewrite short2net_val. reflexivity.
Qed.

Lemma net_long_round : forall b p v, bytebuf b -> 0 <= p -> p + 4 <= b_size b -> 0 <= v ->
  let w := v mod 4294967296 in
  long2net v = [w / 16777216; w / 65536 mod 256; w / 256 mod 256; w mod 256] /\
  (region (b_at b) p 4 = long2net v -> net2long b p = Ok (w, p + 4)).
Proof.
  intros b p v Hb Hp Hp2 Hv w. assert (Ew : long2net v = long2net w).
  { unfold w. rewrite !long2net_val. rewrite Z.mod_mod by lia.
    rewrite <- (Znumtheory.Zmod_div_mod 16777216 4294967296 v) by (try lia; exists 256; reflexivity).
    rewrite <- (Znumtheory.Zmod_div_mod 65536 4294967296 v) by (try lia; exists 65536; reflexivity).
    rewrite <- (Znumtheory.Zmod_div_mod 256 4294967296 v) by (try lia; exists 16777216; reflexivity). reflexivity. }
  split.
  - rewrite Ew, long2net_val. assert (0 <= w < 4294967296) by (unfold w; lia). clearbody w. clear Ew.
    rewrite (Z.mod_small w 4294967296) by lia. f_equal. f_equal; [lia|]. f_equal. lia.
  - intros Hr. apply net2long_seg; try assumption; [|unfold u32, w; lia]. apply region_seg. rewrite <- Ew. rewrite <- Hr at 2. rewrite long2net_val. reflexivity.
Qed.

(* ------------------------------------------------------------------ *)
(* A smaller buffer: the same result, or a read past its end. *)

Definition rle {A : Type} (x y : res A) : Prop := x = y \/ exists o, x = UB (OobRead o).

Lemma rle_refl : forall A (x : res A), rle x x.
Proof. intros. left. reflexivity. Qed.

Lemma rle_bind : forall A B (x y : res A) (f g : A -> res B), rle x y -> (forall a, rle (f a) (g a)) -> rle (bind x f) (bind y g).
Proof.
  intros A B x y f g [->|[o ->]] H; [|right; exists o; reflexivity].
  destruct y as [a| |u|]; cbn [bind]; try apply rle_refl. apply H.
Qed.

Local Opaque PTR_FUEL LABEL_FUEL.
Section Resize.
Variables b c : buffer.
Hypothesis Hat : b_at b = b_at c.
Hypothesis Hsz : b_size b <= b_size c.

Lemma rd_rle : forall o, rle (rd b o) (rd c o).
Proof.
  intros o. unfold rd. destruct ((0 <=? o) && (o <? b_size b)) eqn:E.
  - replace ((0 <=? o) && (o <? b_size c)) with true by lia. rewrite Hat. apply rle_refl.
  - right. eauto.
Qed.

Lemma rdn_rle : forall o n, rle (rdn b o n) (rdn c o n).
Proof.
  intros o n. unfold rdn. destruct (n <=? 0); [apply rle_refl|]. destruct ((0 <=? o) && (o + n <=? b_size b)) eqn:E.
  - replace ((0 <=? o) && (o + n <=? b_size c)) with true by lia. rewrite Hat. apply rle_refl.
  - right. eauto.
Qed.

Ltac rle1 := lazymatch goal with
  | |- rle (bind _ _) _ => apply rle_bind; [|intros]
  | |- rle (rd _ _) _ => apply rd_rle
  | |- rle (rdn _ _ _) _ => apply rdn_rle
  | |- rle (if ?x then _ else _) _ => destruct x
  | |- rle (wr _ _ _) _ => apply rle_refl
  | |- rle (Ok _) _ => apply rle_refl
  | |- rle Rej _ => apply rle_refl
  | |- rle Hang _ => apply rle_refl
  | |- rle (let '(_, _) := ?a in _) _ => destruct a
  end.

Lemma net2short_rle : forall p, rle (net2short b p) (net2short c p).
Proof. intros. unfold net2short. repeat rle1. Qed.
Lemma net2long_rle : forall p, rle (net2long b p) (net2long c p).
Proof. intros. unfold net2long. repeat rle1. Qed.
Lemma ldecomp_rle : forall p, rle (ldecomp b p) (ldecomp c p).
Proof. intros. unfold ldecomp. repeat rle1. Qed.
Lemma skip_ptrs_rle : forall fuel len l prev, rle (skip_ptrs fuel b len l prev) (skip_ptrs fuel c len l prev).
Proof.
  induction fuel as [|f IH]; intros; cbn [skip_ptrs]; [apply rle_refl|]. repeat (first [rle1|apply ldecomp_rle|apply IH]).
Qed.
Lemma label_copy_rle : forall fuel psz len l acc, rle (label_copy fuel b psz len l acc) (label_copy fuel c psz len l acc).
Proof.
  induction fuel as [|f IH]; intros; cbn [label_copy]; [apply rle_refl|]. repeat (first [rle1|apply skip_ptrs_rle|apply IH]).
Qed.
Lemma label_adv_rle : forall fuel l, rle (label_adv fuel b l) (label_adv fuel c l).
Proof.
  induction fuel as [|f IH]; intros; cbn [label_adv]; [apply rle_refl|]. repeat (first [rle1|apply IH]).
Qed.
Lemma label_parse_rle : forall psz s slot p, rle (label_parse b psz s slot p) (label_parse c psz s slot p).
Proof. intros. unfold label_parse. repeat (first [rle1|apply label_copy_rle|apply label_adv_rle]). Qed.
Lemma rr_parse1_rle : forall psz s slot p, rle (rr_parse1 b psz s slot p) (rr_parse1 c psz s slot p).
Proof.
  intros. unfold rr_parse1.
  repeat (first [rle1|apply label_parse_rle|apply net2short_rle|apply net2long_rle|progress cbv zeta]).
Qed.
Lemma rr_parse_rle : forall n psz s slot p, rle (rr_parse b psz s n slot p) (rr_parse c psz s n slot p).
Proof. induction n as [|n IH]; intros; cbn [rr_parse]; repeat (first [rle1|apply rr_parse1_rle|apply IH]). Qed.
Lemma qd_parse_rle : forall n psz s slot p, rle (qd_parse b psz s n slot p) (qd_parse c psz s n slot p).
Proof. induction n as [|n IH]; intros; cbn [qd_parse]; repeat (first [rle1|apply label_parse_rle|apply net2short_rle|apply IH]). Qed.
Lemma message_parse_rle : forall psz, rle (message_parse b psz) (message_parse c psz).
Proof.
  intros. unfold message_parse.
  repeat (first [rle1|apply rr_parse_rle|apply qd_parse_rle|apply net2short_rle|progress cbv zeta
                |match goal with |- context [my ?s ?n] => destruct (my s n) end]).
Qed.
End Resize.
Local Transparent PTR_FUEL LABEL_FUEL.

(* C04, C05, C07 for a buffer of any size *)
Lemma message_parse_any : forall b psz, bytebuf b -> 65536 <= psz ->
  match message_parse b psz with
  | Ok (m, s, p) =>
      pst_ok s /\ ps_len s <= 65536 /\
      Forall (fun q => zlen (q_name q) <= 256) (m_qd m) /\
      Forall rr_names_ok (m_an m) /\ Forall rr_names_ok (m_ns m) /\ Forall rr_names_ok (m_ar m)
  | Rej => True
  | UB (OobRead o) => b_size b < READ_BOUND
  | UB _ => False
  | Hang => False
  end.
Proof.
  intros b psz Hb Hps.
  destruct (Z.le_gt_cases READ_BOUND (b_size b)) as [L|L].
  - pose proof (message_parse_safe b psz Hb L Hps) as H. destruct (message_parse b psz) as [[[m s] p]| |u|]; cbn [safe] in H; try contradiction; [tauto|exact I].
  - set (c := mkbuffer READ_BOUND (b_at b)).
    assert (Hc : bytebuf c) by exact Hb.
    pose proof (message_parse_safe c psz Hc ltac:(unfold c; cbn [b_size]; lia) Hps) as H.
    destruct (message_parse_rle b c eq_refl ltac:(unfold c; cbn [b_size]; lia) psz) as [E|[o E]]; rewrite E; [|exact L].
    destruct (message_parse c psz) as [[[m s] p]| |u|]; cbn [safe] in H; try contradiction; [tauto|exact I].
Qed.

(* ------------------------------------------------------------------ *)
(* C08 *)

Lemma rr_parse_count : forall n b psz s slot p s' p' rs, rr_parse b psz s n slot p = Ok (s', p', rs) -> length rs = n.
Proof.
  induction n as [|n IH]; intros b psz s slot p s' p' rs H; cbn [rr_parse] in H; [injection H as <- <- <-; reflexivity|].
  apply bind_ok in H. destruct H as ([[s1 p1] r] & _ & H). apply bind_ok in H. destruct H as ([[s2 p2] rs'] & H2 & H). injection H as <- <- <-.
  cbn [length]. rewrite (IH _ _ _ _ _ _ _ _ H2). reflexivity.
Qed.
Lemma qd_parse_count : forall n b psz s slot p s' p' rs, qd_parse b psz s n slot p = Ok (s', p', rs) -> length rs = n.
Proof.
  induction n as [|n IH]; intros b psz s slot p s' p' rs H; cbn [qd_parse] in H; [injection H as <- <- <-; reflexivity|].
  apply bind_ok in H. destruct H as ([[s1 p1] r] & _ & H). apply bind_ok in H. destruct H as (_ & _ & H).
  apply bind_ok in H. destruct H as ([ty p2] & _ & H). apply bind_ok in H. destruct H as ([cl p3] & _ & H).
  apply bind_ok in H. destruct H as ([[s2 p4] rs'] & H2 & H). injection H as <- <- <-.
  cbn [length]. rewrite (IH _ _ _ _ _ _ _ _ H2). reflexivity.
Qed.

Lemma net2short_at : forall b p v p', bytebuf b -> net2short b p = Ok (v, p') -> v = b_at b p * 256 + b_at b (p + 1) /\ p' = p + 2.
Proof.
  intros b p v p' Hb H. unfold net2short in H. apply bind_ok in H. destruct H as (h & Hh & H). apply bind_ok in H. destruct H as (l & Hl & H).
  apply rd_ok in Hh. apply rd_ok in Hl. injection H as <- <-. destruct Hh as [_ ->]. destruct Hl as [_ ->]. split; [|reflexivity].
  apply net2short_val; apply Hb.
Qed.

Lemma header_bytes : forall m id h i, 0 <= i < 12 -> zget (message_packet m id h) i =
  zget (short2net id ++ [flag0 h; flag1 h] ++ short2net (e_qd m) ++ short2net (e_an m) ++ short2net (e_ns m) ++ short2net (e_ar m)) i.
Proof.
  intros m id h i Hi. unfold message_packet. cbv zeta. fold (flag0 h). fold (flag1 h).
  replace (short2net id ++ [flag0 h; flag1 h] ++ short2net (e_qd m) ++ short2net (e_an m) ++ short2net (e_ns m) ++ short2net (e_ar m) ++ skipn 12 (e_out m))
    with ((short2net id ++ [flag0 h; flag1 h] ++ short2net (e_qd m) ++ short2net (e_an m) ++ short2net (e_ns m) ++ short2net (e_ar m)) ++ skipn 12 (e_out m)) by (rewrite <- !app_assoc; reflexivity).
  apply zget_app_l. rewrite !zlen_app, !zlen_short, !zlen_cons, zlen_nil. lia.
Qed.

Lemma header_survives : forall m id h b psz msg s p,
  u16 id -> legal_header h -> u16 (e_qd m) -> u16 (e_an m) -> u16 (e_ns m) -> u16 (e_ar m) -> bytebuf b ->
  (forall i, 0 <= i < 12 -> b_at b i = zget (message_packet m id h) i) ->
  message_parse b psz = Ok (msg, s, p) ->
  m_id msg = id /\ m_header msg = h /\
  zlen (m_qd msg) = e_qd m /\ zlen (m_an msg) = e_an m /\ zlen (m_ns msg) = e_ns m /\ zlen (m_ar msg) = e_ar m.
Proof.
  intros m id h b psz msg s p Hid Hh Hqd Han Hns Har Hb Hat H. unfold u16 in *.
  assert (Hz : forall i, 0 <= i < 12 -> b_at b i = zget (short2net id ++ [flag0 h; flag1 h] ++ short2net (e_qd m) ++ short2net (e_an m) ++ short2net (e_ns m) ++ short2net (e_ar m)) i).
  { intros i Hi. rewrite Hat by exact Hi. apply header_bytes. exact Hi. }
  rewrite !short2net_val in Hz. cbn [app] in Hz.
  assert (Z0 : b_at b 0 = id mod 65536 / 256) by exact (Hz 0 ltac:(lia)).
  assert (Z1 : b_at b 1 = id mod 256) by exact (Hz 1 ltac:(lia)).
  assert (Z2 : b_at b 2 = flag0 h) by exact (Hz 2 ltac:(lia)).
  assert (Z3 : b_at b 3 = flag1 h) by exact (Hz 3 ltac:(lia)).
  assert (Z4 : b_at b 4 = e_qd m mod 65536 / 256) by exact (Hz 4 ltac:(lia)).
  assert (Z5 : b_at b 5 = e_qd m mod 256) by exact (Hz 5 ltac:(lia)).
  assert (Z6 : b_at b 6 = e_an m mod 65536 / 256) by exact (Hz 6 ltac:(lia)).
  assert (Z7 : b_at b 7 = e_an m mod 256) by exact (Hz 7 ltac:(lia)).
  assert (Z8 : b_at b 8 = e_ns m mod 65536 / 256) by exact (Hz 8 ltac:(lia)).
  assert (Z9 : b_at b 9 = e_ns m mod 256) by exact (Hz 9 ltac:(lia)).
  assert (Z10 : b_at b 10 = e_ar m mod 65536 / 256) by exact (Hz 10 ltac:(lia)).
  assert (Z11 : b_at b 11 = e_ar m mod 256) by exact (Hz 11 ltac:(lia)).
  clear Hz.
  destruct (header_round h Hh) as (Hhr & _ & _).
  unfold message_parse in H.
  apply bind_ok in H. destruct H as ([id' p0] & E0 & H). destruct (net2short_at _ _ _ _ Hb E0) as [-> ->].
  apply bind_ok in H. destruct H as (c0 & E1 & H). apply rd_ok in E1. destruct E1 as [_ ->].
  apply bind_ok in H. destruct H as (c1 & E1 & H). apply rd_ok in E1. destruct E1 as [_ ->]. cbv zeta in H.
  apply bind_ok in H. destruct H as ([qd p1] & E1 & H). destruct (net2short_at _ _ _ _ Hb E1) as [-> ->]. destruct (_ <? _) in H; [discriminate|].
  apply bind_ok in H. destruct H as ([an p2] & E2 & H). destruct (net2short_at _ _ _ _ Hb E2) as [-> ->]. destruct (_ <? _) in H; [discriminate|].
  apply bind_ok in H. destruct H as ([ns p3] & E3 & H). destruct (net2short_at _ _ _ _ Hb E3) as [-> ->]. destruct (_ <? _) in H; [discriminate|].
  apply bind_ok in H. destruct H as ([ar p4] & E4 & H). destruct (net2short_at _ _ _ _ Hb E4) as [-> ->]. destruct (_ <? _) in H; [discriminate|].
  destruct (my _ _) as [s0 a0] in H.
  apply bind_ok in H. destruct H as ([[s1 p5] qds] & E5 & H). apply qd_parse_count in E5.
  destruct (my _ _) as [s2 a2] in H. destruct (my _ _) as [s3 a3] in H. destruct (my _ _) as [s4 a4] in H.
  apply bind_ok in H. destruct H as ([[s5 p6] ans] & E6 & H). apply rr_parse_count in E6.
  apply bind_ok in H. destruct H as ([[s6 p7] nss] & E7 & H). apply rr_parse_count in E7.
  apply bind_ok in H. destruct H as ([[s7 p8] ars] & E8 & H). apply rr_parse_count in E8.
  injection H as <- <- <-. cbn [m_id m_header m_qd m_an m_ns m_ar]. unfold zlen. rewrite E5, E6, E7, E8.
  cbn [Z.add Pos.add Pos.succ]. rewrite Z0, Z1, Z2, Z3, Z4, Z5, Z6, Z7, Z8, Z9, Z10, Z11. rewrite Hhr.
  clear - Hid Hqd Han Hns Har.
  assert (D : forall v, 0 <= v < 65536 -> v mod 65536 / 256 * 256 + v mod 256 = v) by (clear; intros; lia).
  rewrite !D by assumption. rewrite !Z2Nat.id by tauto. repeat split; reflexivity.
Qed.

(* ------------------------------------------------------------------ *)
(* C10 *)

Lemma label_adv_end : forall get N o n e, name_at get N o n e -> forall fuel b l, b_at b = get -> bytebuf b ->
  label_adv fuel b o = Ok l -> l + 1 = e.
Proof.
  induction 1 as [o Ho Hg|o l0 n e H0 H1 H2 H3 H4 H5 IH|o t n e H0 H1 H2 H3 Ht Hlt H5 IH]; intros fuel b l Hb Hbb H;
    destruct fuel as [|f]; cbn [label_adv] in H; try discriminate;
    apply bind_ok in H; destruct H as (c & Hc & H); apply rd_ok in Hc; destruct Hc as [_ ->]; rewrite Hb in H.
  - rewrite Hg in H. cbn in H. injection H as <-. reflexivity.
  - rewrite H2 in H. destruct (Z.eqb_spec (len l0) 0); [lia|]. rewrite land_192 in H by (unfold is_byte; lia).
    replace (len l0 <? 64) with true in H by lia. cbn [negb] in H.
    replace (o + len l0 + 1) with (o + 1 + len l0) in H by lia. exact (IH _ _ _ Hb Hbb H).
  - destruct (Z.eqb_spec (get o) 0); [lia|]. rewrite land_192 in H by (unfold is_byte; lia).
    replace (get o <? 64) with false in H by lia. cbn [negb] in H. injection H as <-. lia.
Qed.

Lemma label_parse_end : forall b psz s slot p s' p' name N n e, bytebuf b ->
  label_parse b psz s slot p = Ok (s', p', name) -> name_at (b_at b) N p n e -> p' = e.
Proof.
  intros b psz s slot p s' p' name N n e Hb H Hn. unfold label_parse in H. destruct (_ <=? _) in H; [discriminate|].
  apply bind_ok in H. destruct H as (_ & _ & H). apply bind_ok in H. destruct H as (nm & _ & H).
  apply bind_ok in H. destruct H as (l & Hl & H). apply bind_ok in H. destruct H as (_ & _ & H).
  pose proof (label_adv_end _ _ _ _ _ Hn _ _ _ eq_refl Hb Hl) as E.
  cbv zeta in H. destruct (existsb _ _) in H; injection H as _ <- _; exact E.
Qed.

(* The announced length rdl is the natural one for data of type ty at d. *)
Definition natural_length (get : Z -> Z) (N ty d rdl : Z) : Prop :=
  (ty = 1 -> rdl = 4) /\ (ty = 28 -> rdl = 16) /\
  (In ty [2; 5; 12] -> exists n, name_at get N d n (d + rdl)) /\
  (ty = 33 -> exists n, name_at get N (d + 6) n (d + rdl)).

Lemma record_extent : forall b psz s slot p s' p' r, bytebuf b ->
  rr_parse1 b psz s slot p = Ok (s', p', r) ->
  exists s1 e, label_parse b psz s slot p = Ok (s1, e, rr_name r) /\
    let d := e + 10 in let rdl := b_at b (e + 8) * 256 + b_at b (e + 9) in
    rr_type r = b_at b e * 256 + b_at b (e + 1) /\
    (natural_length (b_at b) (b_size b) (rr_type r) d rdl -> p' = d + rdl).
Proof.
  intros b psz s slot p s' p' r Hb H. unfold rr_parse1 in H.
  apply bind_ok in H. destruct H as ([[s1 e] name] & El & H).
  apply bind_ok in H. destruct H as (_ & _ & H).
  apply bind_ok in H. destruct H as ([ty p1] & E1 & H). destruct (net2short_at _ _ _ _ Hb E1) as [Ety ->].
  apply bind_ok in H. destruct H as ([cl p2] & E2 & H). destruct (net2short_at _ _ _ _ Hb E2) as [_ ->].
  apply bind_ok in H. destruct H as ([ttl p3] & E3 & H).
  assert (p3 = e + 2 + 2 + 4).
  { unfold net2long in E3. repeat (apply bind_ok in E3; destruct E3 as (? & _ & E3)). injection E3 as _ <-. reflexivity. }
  subst p3. apply bind_ok in H. destruct H as ([rdl p4] & E4 & H). destruct (net2short_at _ _ _ _ Hb E4) as [Erdl ->].
  replace (e + 2 + 2 + 4 + 2) with (e + 10) in * by lia. replace (e + 2 + 2 + 4) with (e + 8) in * by lia. replace (e + 8 + 1) with (e + 9) in * by lia.
  destruct ((_ <? _) || _) in H; [discriminate|]. cbv zeta in H.
  unfold QTYPE_A, QTYPE_AAAA, QTYPE_NS, QTYPE_CNAME, QTYPE_PTR, QTYPE_SRV in H.
  apply bind_ok in H. destruct H as ([[s2 rdl2] rdata] & Ed & H).
  assert (Hrest : rr_name r = name /\ rr_type r = ty /\ (natural_length (b_at b) (b_size b) ty (e + 10) rdl -> p' = e + 10 + rdl)).
  { destruct (Z.eqb_spec ty 1) as [T1|T1].
    { destruct (_ <? _) in H; [discriminate|]. apply bind_ok in H. destruct H as (_ & _ & H). apply bind_ok in H. destruct H as (ip & _ & H).
      injection H as _ <- <-. split; [reflexivity|]. split; [reflexivity|]. intros (N1 & _). rewrite (N1 T1). reflexivity. }
    destruct (Z.eqb_spec ty 28) as [T2|T2].
    { destruct (_ <? _) in H; [discriminate|]. apply bind_ok in H. destruct H as (_ & _ & H). apply bind_ok in H. destruct H as (ip & _ & H).
      injection H as _ <- <-. split; [reflexivity|]. split; [reflexivity|]. intros (_ & N2 & _). rewrite (N2 T2). reflexivity. }
    destruct ((ty =? 2) || (ty =? 5) || (ty =? 12)) eqn:T3.
    { apply bind_ok in H. destruct H as ([[s3 p5] tg] & El2 & H). injection H as _ <- <-. split; [reflexivity|]. split; [reflexivity|].
      intros (_ & _ & N3 & _). destruct N3 as [n Hn]; [cbn [In]; lia|]. exact (label_parse_end _ _ _ _ _ _ _ _ _ _ _ Hb El2 Hn). }
    destruct (Z.eqb_spec ty 33) as [T4|T4].
    { apply bind_ok in H. destruct H as ([pr p5] & S1 & H). destruct (net2short_at _ _ _ _ Hb S1) as [_ ->].
      apply bind_ok in H. destruct H as ([we p6] & S2 & H). destruct (net2short_at _ _ _ _ Hb S2) as [_ ->].
      apply bind_ok in H. destruct H as ([po p7] & S3 & H). destruct (net2short_at _ _ _ _ Hb S3) as [_ ->].
      replace (e + 10 + 2 + 2 + 2) with (e + 10 + 6) in H by lia.
      apply bind_ok in H. destruct H as ([[s3 p8] tg] & El2 & H). injection H as _ <- <-. split; [reflexivity|]. split; [reflexivity|].
      intros (_ & _ & _ & N4). destruct (N4 T4) as [n Hn]. exact (label_parse_end _ _ _ _ _ _ _ _ _ _ _ Hb El2 Hn). }
    cbn [orb] in Ed. replace ((ty =? 33)) with false in Ed by lia. rewrite ?orb_false_r in Ed.
    apply bind_ok in Ed. destruct Ed as (_ & _ & Ed). apply bind_ok in Ed. destruct Ed as (dt & _ & Ed). injection Ed as <- <- <-.
    injection H as _ <- <-. split; [reflexivity|]. split; [reflexivity|]. intros _. reflexivity. }
  destruct Hrest as (Hn & Ht & Hp). exists s1, e. rewrite Hn, Ht. split; [exact El|]. cbv zeta. split; [exact Ety|]. rewrite <- Erdl. exact Hp.
Qed.

Lemma parse_no_hang : forall b psz, bytebuf b -> 65536 <= psz -> message_parse b psz <> Hang.
Proof.
  intros b psz Hb Hp E. pose proof (message_parse_any b psz Hb Hp) as H. rewrite E in H. exact H.
Qed.

Lemma parse_no_oob_write : forall b psz, bytebuf b -> 65536 <= psz ->
  (forall o, message_parse b psz <> UB (OobWrite o)) /\
  (forall m s p, message_parse b psz = Ok (m, s, p) ->
     ps_len s <= 65536 /\ Forall (fun x => 0 <= fst x /\ 0 <= snd x /\ fst x + snd x <= 65536) (ps_log s)).
Proof.
  intros b psz Hb Hp. pose proof (message_parse_any b psz Hb Hp) as H. split.
  - intros o E. rewrite E in H. exact H.
  - intros m s p E. rewrite E in H. destruct H as ((H0 & H1 & _) & H2 & _). split; [exact H2|]. eapply Forall_impl; [|exact H1]. cbv beta. intros a Ha. lia.
Qed.

Lemma parse_read_bound : forall b psz o, bytebuf b -> 65536 <= psz -> 90117 <= b_size b -> message_parse b psz <> UB (OobRead o).
Proof.
  intros b psz o Hb Hp Hs E. pose proof (message_parse_any b psz Hb Hp) as H. rewrite E in H. unfold READ_BOUND in H. lia.
Qed.

Lemma parse_disjoint : forall b psz m s p, bytebuf b -> 65536 <= psz -> message_parse b psz = Ok (m, s, p) ->
  ForallOrdPairs disjoint (ps_log s) /\
  Forall (fun q => zlen (q_name q) <= 256) (m_qd m) /\
  Forall rr_names_ok (m_an m ++ m_ns m ++ m_ar m).
Proof.
  intros b psz m s p Hb Hp E. pose proof (message_parse_any b psz Hb Hp) as H. rewrite E in H.
  destruct H as ((_ & _ & H1 & _) & _ & H2 & H3 & H4 & H5). split; [exact H1|]. split; [exact H2|].
  apply Forall_app. split; [exact H3|]. apply Forall_app. split; assumption.
Qed.

Lemma name_decodes : forall b psz s slot p N lim n e,
  bytebuf b -> N <= b_size b -> N <= 65536 -> 65536 <= psz -> 0 <= slot -> slot + 8 <= psz ->
  name_at_simple (b_at b) N lim p n e -> lim <= ps_len s -> lim <= 4095 ->
  Forall (Forall (fun c => c <> 0)) n ->
  len (dotted n) <= 256 -> 0 <= ps_len s -> ps_len s + len (dotted n) < 65535 ->
  exists s', label_parse b psz s slot p = Ok (s', e, dotted n).
Proof.
  intros b psz s slot p N lim n e Hb HN HN2 Hps Hs0 Hs8 Hn Hl1 Hl2 Hnz Hd Hs Hf. rewrite len_zlen in *. pose proof (zlen_nonneg _ (dotted n)).
  eexists. apply (label_parse_simple b psz s slot p N lim n e); try assumption; try lia. eapply name_at_simple_labels. exact Hn.
Qed.
