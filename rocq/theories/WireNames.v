(* The name decoder of Wire.v against the RFC 1035 relation of SpecDns.v. *)
From Verif Require Import Base Lemmas SpecDns Wire WireSafe.

Lemma region_map : forall get n o, region get o n = map get (zseq o n).
Proof. induction n as [|n IH]; intros o; cbn [region zseq map]; [reflexivity|]. rewrite IH. reflexivity. Qed.

Lemma len_zlen : forall (A : Type) (l : list A), len l = zlen l.
Proof. reflexivity. Qed.

Lemma simple_name_at : forall get N lim o n e, name_at_simple get N lim o n e -> name_at get N o n e.
Proof.
  intros get N lim o n e H. induction H.
  - apply na_root; assumption.
  - apply na_label; assumption.
  - eapply na_ptr; eassumption.
Qed.

Lemma dotted_nil : dotted [] = [].
Proof. reflexivity. Qed.
Lemma dotted_cons : forall l n, dotted (l :: n) = l ++ [46] ++ dotted n.
Proof. intros. unfold dotted. cbn [map concat]. rewrite <- app_assoc. reflexivity. Qed.
Lemma dotted_app : forall a b, dotted (a ++ b) = dotted a ++ dotted b.
Proof. intros. unfold dotted. rewrite map_app, concat_app. reflexivity. Qed.

Lemma ldecomp_val_ptr : forall c0 c1, 192 <= c0 <= 255 -> is_byte c1 -> (c0 - 192) * 256 + c1 <= 4095 ->
  ldecomp_val c0 c1 = (c0 - 192) * 256 + c1.
Proof.
  intros c0 c1 H0 H1 H2. unfold ldecomp_val. cbv zeta.
  pose proof (byte_forallb (fun c => implb (192 <=? c) (Z.shiftl (Z.lxor 192 (schar c) mod 65536) 8 mod 65536 =? (c - 192) * 256)) eq_refl c0) as E.
  cbv beta in E. specialize (E ltac:(unfold is_byte; lia)).
  replace (192 <=? c0) with true in E by lia. cbn [implb] in E. apply Z.eqb_eq in E. rewrite E.
  replace ((c0 - 192) * 256) with ((c0 - 192) * 2 ^ 8) in * by lia.
  rewrite lor_disjoint_add by (unfold is_byte in H1; lia).
  destruct (Z.leb_spec 4096 ((c0 - 192) * 2 ^ 8 + c1)); lia.
Qed.

Lemma rd_eq : forall b o, 0 <= o < b_size b -> rd b o = Ok (b_at b o).
Proof. intros. unfold rd. replace ((0 <=? o) && (o <? b_size b)) with true by lia. reflexivity. Qed.

Lemma rdn_eq : forall b o n, 0 <= n -> 0 <= o -> o + n <= b_size b -> rdn b o n = Ok (map (b_at b) (zseq o (Z.to_nat n))).
Proof.
  intros b o n Hn Ho H. unfold rdn. destruct (Z.leb_spec n 0).
  - replace n with 0 by lia. reflexivity.
  - replace ((0 <=? o) && (o + n <=? b_size b)) with true by lia. reflexivity.
Qed.

Lemma wr_eq : forall psz o n, 0 <= o -> o + n <= psz -> wr psz o n = Ok tt.
Proof.
  intros. unfold wr. destruct (Z.leb_spec n 0); [reflexivity|].
  replace ((0 <=? o) && (o + n <=? psz)) with true by lia. reflexivity.
Qed.

Lemma lit_land : forall c, is_byte c -> c < 64 -> Z.land c 192 = 0.
Proof.
  intros c Hc H. pose proof (land_192 c Hc) as E. destruct (Z.ltb_spec c 64); [|lia]. apply Z.eqb_eq in E. exact E.
Qed.

Lemma skip_ptrs_one : forall b len o t,
  bytebuf b -> 0 <= o -> o + 1 < b_size b -> 192 <= b_at b o -> t = (b_at b o - 192) * 256 + b_at b (o + 1) ->
  t <= 4095 -> t <= len -> t < b_size b -> 1 <= b_at b t <= 63 ->
  skip_ptrs PTR_FUEL b len o (-1) = Ok t.
Proof.
  intros b len o t Hb Ho Ho1 Hp Ht Ht1 Ht2 Ht3 Hl.
  assert (Hf : exists f, PTR_FUEL = S (S f)).
  { exists (Z.to_nat 4098). unfold PTR_FUEL. rewrite <- !Z2Nat.inj_succ by lia. reflexivity. }
  pose proof (Hb o) as Hbo. pose proof (Hb (o + 1)) as Hbo1. unfold is_byte in *.
  destruct Hf as [f ->]. cbn [skip_ptrs].
  rewrite rd_eq by lia. cbn [bind]. rewrite land_192 by (unfold is_byte; lia).
  destruct (Z.ltb_spec (b_at b o) 64); [lia|]. unfold ldecomp. rewrite !rd_eq by lia. cbn [bind].
  rewrite ldecomp_val_ptr by (unfold is_byte; lia). rewrite <- Ht.
  replace ((t <=? -1) || (len <? t)) with false by lia.
  assert (0 <= t) by lia. rewrite rd_eq by lia. cbn [bind]. destruct (Z.eqb_spec (b_at b t) 0); [lia|].
  cbn [bind]. rewrite land_192 by (unfold is_byte; lia).
  destruct (Z.ltb_spec (b_at b t) 64); [reflexivity|lia].
Qed.

(* A name is not empty where a pointer may lead *)
Lemma label_copy_simple : forall b N lim o ls e,
  name_at_simple (b_at b) N lim o ls e ->
  forall psz len fuel acc, bytebuf b -> N <= b_size b -> N <= 65536 -> lim <= len -> lim <= 4095 -> 0 <= len -> 65536 <= psz ->
  Z.of_nat (length ls) < Z.of_nat fuel -> zlen acc + zlen (dotted ls) <= 256 -> len + zlen acc + zlen (dotted ls) <= 65535 ->
  label_copy fuel b psz len o acc = Ok (acc ++ dotted ls).
Proof.
  intros b N lim o ls e H. induction H as [o Ho Hz | o l n e Ho Hlt Hget Hlen Hreg Hn IH | o t n e Ho Hlt Hget Hget1 Ht Hto Htlim Htl Hn IH];
    intros psz len fuel acc Hb HN HN2 Hlim Hlim2 Hlen0 Hpsz Hfuel Htot Htot2.
  - destruct fuel as [|f]; [cbn [length] in Hfuel; lia|]. cbn [label_copy]. rewrite rd_eq by lia. cbn [bind]. rewrite Hz. cbn [Z.eqb].
    rewrite dotted_nil, app_nil_r. reflexivity.
  - rewrite len_zlen in *. destruct fuel as [|f]; [cbn [length] in Hfuel; lia|]. cbn [label_copy].
    rewrite dotted_cons, !zlen_app, zlen_cons, zlen_nil in Htot, Htot2. pose proof (zlen_nonneg _ acc). pose proof (zlen_nonneg _ (dotted n)).
    rewrite rd_eq by lia. cbn [bind]. destruct (Z.eqb_spec (b_at b o) 0); [lia|].
    rewrite (skip_ptrs_lit _ _ _ _ (b_at b o)) by (solve [apply rd_eq; lia | apply lit_land; [apply Hb|lia]]).
    cbn [bind]. rewrite rd_eq by lia. cbn [bind]. rewrite Hget. unfold MAX_PACKET_LEN.
    replace ((255 <? zlen acc + zlen l) || (65535 <=? len + (zlen acc + zlen l)) || (65535 <? o + 1 + zlen l)) with false by lia.
    rewrite rdn_eq by lia. cbn [bind]. rewrite wr_eq by lia. cbn [bind].
    replace (Z.to_nat (zlen l)) with (length l) by (unfold zlen; lia).
    rewrite <- region_map, Hreg. replace (o + zlen l + 1) with (o + 1 + zlen l) by lia.
    rewrite IH; try assumption; rewrite ?zlen_app, ?zlen_cons, ?zlen_nil; try lia.
    + rewrite dotted_cons, <- !app_assoc. reflexivity.
    + cbn [length] in Hfuel. lia.
  - rewrite <- (IH psz len fuel acc) by assumption.
    assert (Hne : 0 <= t /\ t < N).
    { inversion Hn; subst; rewrite ?len_zlen in *; lia. }
    destruct fuel as [|f]; [lia|]. cbn [label_copy].
    pose proof (zlen_nonneg _ acc).
    rewrite !rd_eq by lia. cbn [bind]. destruct (Z.eqb_spec (b_at b o) 0); [lia|]. destruct (Z.eqb_spec (b_at b t) 0); [lia|].
    rewrite skip_ptrs_one with (t := t) by (try assumption; lia). cbn [bind].
    rewrite (skip_ptrs_lit _ _ _ _ (b_at b t)) by (solve [apply rd_eq; lia | apply lit_land; [apply Hb|lia]]).
    reflexivity.
Qed.

Lemma label_adv_simple : forall b N lim o ls e,
  name_at_simple (b_at b) N lim o ls e ->
  forall fuel, bytebuf b -> N <= b_size b -> Z.of_nat (length ls) < Z.of_nat fuel ->
  label_adv fuel b o = Ok (e - 1).
Proof.
  intros b N lim o ls e H. induction H as [o Ho Hz | o l n e Ho Hlt Hget Hlen Hreg Hn IH | o t n e Ho Hlt Hget Hget1 Ht Hto Htlim Htl Hn IH];
    intros fuel Hb HN Hfuel.
  - destruct fuel as [|f]; [cbn [length] in Hfuel; lia|]. cbn [label_adv]. rewrite rd_eq by lia. cbn [bind]. rewrite Hz. cbn [Z.eqb].
    f_equal. lia.
  - rewrite len_zlen in *. destruct fuel as [|f]; [cbn [length] in Hfuel; lia|]. cbn [label_adv].
    pose proof (zlen_nonneg _ l). rewrite rd_eq by lia. cbn [bind]. destruct (Z.eqb_spec (b_at b o) 0); [lia|].
    rewrite land_192 by apply Hb. destruct (Z.ltb_spec (b_at b o) 64); [|lia]. cbn [negb].
    rewrite Hget. replace (o + zlen l + 1) with (o + 1 + zlen l) by lia. apply IH; try assumption. cbn [length] in Hfuel. lia.
  - destruct fuel as [|f]; [lia|]. cbn [label_adv]. rewrite rd_eq by lia. cbn [bind]. destruct (Z.eqb_spec (b_at b o) 0); [lia|].
    rewrite land_192 by apply Hb. destruct (Z.ltb_spec (b_at b o) 64); [lia|]. cbn [negb]. f_equal. lia.
Qed.

Lemma cstr_nonzero : forall l, Forall (fun c => c <> 0) l -> cstr l = l.
Proof.
  induction l as [|x l IH]; intros H; [reflexivity|]. inversion H; subst. cbn [cstr].
  destruct (Z.eqb_spec x 0); [contradiction|]. rewrite IH by assumption. reflexivity.
Qed.

Lemma dotted_nonzero : forall n, Forall (Forall (fun c => c <> 0)) n -> Forall (fun c => c <> 0) (dotted n).
Proof.
  induction n as [|l n IH]; intros H; [constructor|]. inversion H; subst. rewrite dotted_cons.
  apply Forall_app. split; [assumption|]. constructor; [discriminate|]. apply IH. assumption.
Qed.

Lemma dotted_length : forall n, Forall (fun l => 1 <= len l) n -> 2 * Z.of_nat (length n) <= zlen (dotted n).
Proof.
  induction n as [|l n IH]; intros H; [reflexivity|]. inversion H; subst. rewrite dotted_cons, !zlen_app, zlen_cons, zlen_nil.
  specialize (IH H3). rewrite len_zlen in *. cbn [length]. lia.
Qed.

(* State of the parser after a name has been read. *)
Definition pst_after (s : pst) (name : list Z) : pst :=
  if existsb (bytes_eqb name) (ps_names s) then s
  else mkpst (ps_len s + zlen name + 1)
             (if zlen (ps_names s) <? MAX_NUM_LABELS then ps_names s ++ [name] else ps_names s)
             ((ps_len s, zlen name + 1) :: ps_log s).

Lemma pst_after_len : forall s name, ps_len s <= ps_len (pst_after s name) <= ps_len s + zlen name + 1.
Proof. intros. unfold pst_after. pose proof (zlen_nonneg _ name). destruct (existsb _ _); cbn [ps_len]; lia. Qed.

Lemma label_parse_simple : forall b psz s slot p N lim n e,
  bytebuf b -> N <= b_size b -> N <= 65536 -> 65536 <= psz -> lim <= ps_len s -> lim <= 4095 ->
  0 <= slot -> slot + 8 <= psz ->
  name_at_simple (b_at b) N lim p n e ->
  Forall (fun l => 1 <= len l) n -> Forall (Forall (fun c => c <> 0)) n ->
  zlen (dotted n) <= 256 -> 0 <= ps_len s -> ps_len s + zlen (dotted n) <= 65535 -> ps_len s < 65535 ->
  label_parse b psz s slot p = Ok (pst_after s (dotted n), e, dotted n).
Proof.
  intros b psz s slot p N lim n e Hb HN HN2 Hpsz Hlim Hlim2 Hs0 Hs8 Hn Hlab Hnz Hd Hl0 Hfit Hlt.
  pose proof (dotted_length n Hlab) as Hdl. unfold label_parse, MAX_PACKET_LEN.
  destruct (Z.leb_spec 65535 (ps_len s)); [lia|]. rewrite wr_eq by lia. cbn [bind].
  rewrite (label_copy_simple _ _ _ _ _ _ Hn) by (try assumption; rewrite ?(zlen_nil Z); unfold LABEL_FUEL; lia). cbn [bind app].
  rewrite (label_adv_simple _ _ _ _ _ _ Hn) by (try assumption; unfold LABEL_FUEL; lia). cbn [bind].
  pose proof (zlen_nonneg _ (dotted n)).
  rewrite wr_eq by lia. cbn [bind]. cbv zeta. rewrite cstr_nonzero by (apply dotted_nonzero; assumption).
  unfold pst_after. destruct (existsb (bytes_eqb (dotted n)) (ps_names s)); repeat f_equal; lia.
Qed.

Lemma name_at_simple_labels : forall get N lim o n e, name_at_simple get N lim o n e -> Forall (fun l => 1 <= len l) n.
Proof. intros get N lim o n e H. induction H; try constructor; try assumption; lia. Qed.
