(* Compression never makes a name longer, hence C02 for every message whose
   uncompressed size is at most 4096. *)
From Verif Require Import Base Lemmas SpecDns Wire WireSafe WireNames WireEnc WireHost WireCalls WireCallsSpec WireRound.

Lemma compress_len : forall fuel lab out cur x labels, zget lab (zlen lab - 1) = 0 ->
  zlen (compress fuel lab out cur x labels) <= zlen lab.
Proof.
  induction fuel as [|fuel IH]; intros lab out cur x labels H0; cbn [compress]; [lia|].
  destruct (Z.eqb_spec (zget lab x) 0) as [E|E]; [lia|].
  destruct (find_label lab out cur x labels) as [o|].
  - rewrite short2net_val. rewrite zlen_app, !zlen_cons, zlen_nil. unfold zlen at 1. rewrite firstn_length.
    assert (0 <= x < zlen lab - 1).
    { destruct (Z.lt_ge_cases x 0); [rewrite zget_neg in E by lia; contradiction|].
      destruct (Z.lt_ge_cases x (zlen lab - 1)); [lia|]. destruct (Z.eq_dec x (zlen lab - 1)) as [->|]; [contradiction|].
      rewrite zget_out in E by lia. contradiction. }
    unfold zlen in *. lia.
  - destruct (negb _); [lia|]. apply IH. exact H0.
Qed.

Lemma wire_zlen : forall n, zlen (wire n) = zlen (dotted n).
Proof.
  induction n as [|l n IH]; [reflexivity|]. rewrite dotted_cons. unfold wire in *. cbn [map concat]. rewrite !zlen_app, IH, !zlen_cons, zlen_nil. lia.
Qed.

Lemma host_len : forall m dot n, legal_name n -> snd (host m (Some (text dot n))) <= zlen (dotted n) + 1 /\
  packet_len (fst (host m (Some (text dot n)))) = packet_len m + snd (host m (Some (text dot n))).
Proof.
  intros m dot n (Hne & Hleg & Hlen). rewrite len_zlen in Hlen.
  destruct (mklabel_spec n [] (text dot n) Hne Hleg (text_denotes dot n Hne) ltac:(rewrite zlen_nil; lia)) as (lab & last & E1 & E2).
  cbn [app] in E1, E2. unfold host. change (zlen []) with 0 in E1. rewrite E1. cbv zeta. cbn [fst snd]. rewrite E2. split.
  - pose proof (compress_len LABEL_FUEL (wire n ++ [0]) (e_out m) (packet_len m) 0 (e_labels m)) as H.
    rewrite zlen_app, zlen_cons, zlen_nil, wire_zlen in H. apply H. replace (zlen (dotted n) + (1 + 0) - 1) with (zlen (wire n)) by (rewrite wire_zlen; lia).
    rewrite zget_app_r by lia. rewrite Z.sub_diag. apply zget_0.
  - unfold packet_len. cbn [put e_out]. apply zlen_app.
Qed.

Lemma sum_cons : forall x l, sum (x :: l) = x + sum l.
Proof. reflexivity. Qed.

Definition call_size (c : call) : Z :=
  match c with
  | CQd _ n _ _ => name_size n + 4
  | CRr _ _ n _ _ _ => name_size n + 8
  | CLong _ => 6
  | CIp4 _ => 6
  | CIp6 _ => 18
  | CName _ n => 2 + name_size n
  | CSrv _ _ _ _ n => 8 + name_size n
  | CRaw d => 2 + len d
  end.

Lemma packet_put : forall m l, packet_len (put m l) = packet_len m + zlen l.
Proof. intros. unfold packet_len. cbn [put e_out]. apply zlen_app. Qed.

Lemma packet_patch : forall m o v, packet_len (patch2 m o v) = packet_len m.
Proof. intros. unfold patch2. rewrite short2net_val. unfold packet_len. cbn [e_out]. rewrite !zlen_upd. reflexivity. Qed.

Lemma call_len : forall m c, legal_call c -> packet_len (do_call m c) <= packet_len m + call_size c.
Proof.
  intros m c (Hc & Hn).
  destruct c as [dot n ty cl|sec dot n ty cl ttl|v|a|a|dot n|pr we po dot n|d]; cbn [call_name] in Hn; cbn [call_size]; unfold name_size; rewrite ?len_zlen;
   [|destruct sec| | | | | |]; cbn [do_call]; unfold message_qd, message_an, message_ns, message_ar, rrappend, rdata_long, rdata_ipv4, rdata_ipv6, rdata_raw, rdata_name, rdata_srv; cbv zeta;
   try match goal with |- context [host ?m0 (Some ?t)] => let H1 := fresh in let H2 := fresh in destruct (host_len m0 dot n Hn) as [H1 H2]; destruct (host m0 (Some t)) as [m1 k]; cbn [fst snd] in H1, H2 end;
   cbn [fst]; rewrite ?packet_patch, ?packet_put, ?zlen_short, ?zlen_long in *; try (change (zlen [0;0]) with 2 in *).
  1-4: unfold packet_len in *; cbn [e_out] in *; lia.
  - lia.
  - destruct Hc as [_ Hc]. rewrite len_zlen in Hc. lia.
  - destruct Hc as [_ Hc]. rewrite len_zlen in Hc. lia.
  - lia.
  - lia.
  - pose proof (zlen_nonneg _ d). unfold zlen at 1. rewrite firstn_length. destruct (4096 <? packet_len m + zlen d); unfold zlen in *; lia.
Qed.

Lemma fold_len : forall calls m, Forall legal_call calls -> packet_len (fold_left do_call calls m) <= packet_len m + sum (map call_size calls).
Proof.
  induction calls as [|c calls IH]; intros m H; cbn [fold_left map sum fold_right]; [lia|]. change (fold_right Z.add 0) with sum.
  inversion H as [|? ? Hc Hl]; subst. specialize (IH (do_call m c) Hl). pose proof (call_len m c Hc). lia.
Qed.

Lemma legal_data_call : forall ty d, data_fits ty d -> Forall legal_name (data_names d) -> legal_call (data_call d) /\ call_size (data_call d) = 2 + data_size d.
Proof.
  intros ty d Hf Hn. unfold legal_call. destruct d as [ip|ip|d|n|p w q n]; cbn [data_call data_fits data_names data_size call_size call_name] in *; unfold name_size; rewrite ?len_zlen in *.
  - destruct Hf as (_ & H4 & Hb). repeat split; try assumption.
  - destruct Hf as (_ & H4 & Hb). repeat split; try assumption.
  - destruct Hf as (Hb & Hl & _). repeat split; try assumption.
  - inversion Hn; subst. repeat split; auto; try lia; try apply H1.
  - inversion Hn; subst. repeat split; auto; try lia; try apply H1.
Qed.

Lemma message_calls_legal : forall qs an ns ar, Forall legal_rr (an ++ ns ++ ar) ->
  (forall n, In n (map qname qs ++ flat_map rr_names (an ++ ns ++ ar)) -> legal_name n) ->
  Forall legal_call (message_calls qs an ns ar) /\ 12 + sum (map call_size (message_calls qs an ns ar)) = wire_size qs (an ++ ns ++ ar).
Proof.
  intros qs an ns ar Hr Hn.
  assert (Hrr : forall sec rs, Forall legal_rr rs -> (forall n, In n (flat_map rr_names rs) -> legal_name n) ->
     Forall legal_call (flat_map (rr_calls sec) rs) /\ sum (map call_size (flat_map (rr_calls sec) rs)) = sum (map rr_wire_size rs)).
  { intros sec. induction rs as [|r rs IH]; intros HR HN; [split; [constructor|reflexivity]|].
    inversion HR as [|? ? Hr1 HR']; subst. destruct IH as [I1 I2]; [exact HR'|intros n Hin; apply HN; cbn [flat_map]; apply in_or_app; right; exact Hin|].
    cbn [flat_map]. destruct Hr1 as (_ & _ & _ & Hf). 
    destruct (legal_data_call (rtype r) (data r) Hf) as [D1 D2].
    { rewrite Forall_forall. intros n Hin. apply HN. cbn [flat_map]. apply in_or_app. left. right. exact Hin. }
    split.
    - unfold rr_calls at 1. cbn [app]. constructor; [|constructor; [exact D1|exact I1]]. split; [exact I|]. cbn [call_name]. apply HN. cbn [flat_map]. apply in_or_app. left. left. reflexivity.
    - unfold rr_calls at 1. cbn [app map]. unfold sum in *. cbn [fold_right]. fold sum in *. rewrite I2, D2. unfold rr_wire_size at 2. cbn [call_size]. lia. }
  apply Forall_app in Hr. destruct Hr as [Ha Hr]. apply Forall_app in Hr. destruct Hr as [Hns Har].
  rewrite !flat_map_app in Hn.
  destruct (Hrr An an Ha) as [A1 A2]; [intros n Hin; apply Hn; rewrite !in_app_iff; tauto|].
  destruct (Hrr Ns ns Hns) as [N1 N2]; [intros n Hin; apply Hn; rewrite !in_app_iff; tauto|].
  destruct (Hrr Ar ar Har) as [R1 R2]; [intros n Hin; apply Hn; rewrite !in_app_iff; tauto|].
  assert (Hq : Forall legal_call (map quest_call qs) /\ sum (map call_size (map quest_call qs)) = sum (map quest_wire_size qs)).
  { assert (Hn' : forall n, In n (map qname qs) -> legal_name n) by (intros n Hin; apply Hn; rewrite !in_app_iff; tauto). clear -Hn'.
    induction qs as [|q qs IH]; [split; [constructor|reflexivity]|]. destruct IH as [I1 I2]; [intros n Hin; apply Hn'; right; exact Hin|].
    cbn [map]. split; [constructor; [split; [exact I|apply Hn'; left; reflexivity]|exact I1]|].
    unfold sum in *. cbn [fold_right]. rewrite I2. reflexivity. }
  destruct Hq as [Q1 Q2]. unfold message_calls. split.
  - repeat (apply Forall_app; split; try assumption).
  - rewrite !map_app, !sum_app. unfold wire_size. rewrite !map_app, !sum_app. lia.
Qed.

Lemma sum_le : forall (A : Type) (f g : A -> Z) k l, (forall x, In x l -> f x <= k * g x) -> sum (map f l) <= k * sum (map g l).
Proof.
  intros A f g k. induction l as [|x l IH]; intros H; [unfold sum; cbn; lia|]. cbn [map]. unfold sum. cbn [fold_right]. change (fold_right Z.add 0) with sum.
  pose proof (H x (or_introl eq_refl)). specialize (IH ltac:(intros y Hy; apply H; right; exact Hy)). lia.
Qed.

Lemma sum_const : forall (A : Type) (f : A -> Z) k l, (forall x, In x l -> k <= f x) -> k * zlen l <= sum (map f l).
Proof.
  intros A f k. induction l as [|x l IH]; intros H; [unfold sum; cbn; lia|]. cbn [map]. unfold sum. cbn [fold_right]. change (fold_right Z.add 0) with sum. rewrite zlen_cons.
  pose proof (H x (or_introl eq_refl)). specialize (IH ltac:(intros y Hy; apply H; right; exact Hy)). lia.
Qed.

Lemma unpacked_small : forall qs rrs, wire_size qs rrs <= 4096 ->
  (forall n, In n (map qname qs ++ flat_map rr_names rrs) -> legal_name n) -> unpacked_size qs rrs <= 65535.
Proof.
  intros qs rrs Hw Hn.
  assert (Hq : forall q, In q qs -> 7 <= quest_wire_size q).
  { intros q Hq. destruct (Hn (qname q)) as (H1 & H2 & _); [apply in_or_app; left; apply in_map; exact Hq|].
    unfold quest_wire_size, name_size. destruct (qname q) as [|l n]; [contradiction|]. inversion H2 as [|? ? [H3 _] _]; subst. rewrite len_zlen in *. rewrite dotted_cons, !zlen_app, zlen_cons, zlen_nil.
    pose proof (zlen_nonneg _ (dotted n)). lia. }
  assert (Hr : forall r, In r rrs -> 13 <= rr_wire_size r).
  { intros r Hr. destruct (Hn (owner r)) as (H1 & H2 & _); [apply in_or_app; right; apply in_flat_map; exists r; split; [exact Hr|left; reflexivity]|].
    unfold rr_wire_size, name_size. destruct (owner r) as [|l n]; [contradiction|]. inversion H2 as [|? ? [H3 _] _]; subst. rewrite len_zlen in *. rewrite dotted_cons, !zlen_app, zlen_cons, zlen_nil.
    pose proof (zlen_nonneg _ (dotted n)). assert (0 <= data_size (data r)).
    { destruct (data r); cbn [data_size]; unfold name_size; rewrite ?len_zlen; try lia; try (pose proof (zlen_nonneg _ d); lia); match goal with |- context [zlen (dotted ?n)] => pose proof (zlen_nonneg _ (dotted n)); lia end. }
    lia. }
  pose proof (sum_const _ quest_wire_size 7 qs Hq) as Cq. pose proof (sum_const _ rr_wire_size 13 rrs Hr) as Cr.
  assert (Sq : sum (map (fun q => name_size (qname q)) qs) <= 1 * sum (map quest_wire_size qs)).
  { apply sum_le. intros q _. unfold quest_wire_size. lia. }
  assert (Sr : sum (map rr_size rrs) <= 6 * sum (map rr_wire_size rrs)).
  { apply sum_le. intros r Hin. specialize (Hr r Hin).
    assert (raw_size (data r) + sum (map name_size (data_names (data r))) <= data_size (data r)).
    { destruct (data r); cbn [raw_size data_names data_size map]; unfold sum; cbn [fold_right]; lia. }
    unfold rr_size, rr_names. cbn [map]. unfold sum in *. cbn [fold_right]. unfold rr_wire_size in *. pose proof (name_size_nonneg (owner r)). lia. }
  unfold unpacked_size, wire_size in *. rewrite !len_zlen. pose proof (zlen_nonneg _ qs). pose proof (zlen_nonneg _ rrs). change (len rrs) with (zlen rrs). lia.
Qed.

Lemma message_roundtrip_small : forall tld qs an ns ar id h b psz,
  let rrs := an ++ ns ++ ar in
  let m := run (message_calls qs an ns ar) in
  Forall legal_quest qs -> Forall legal_rr rrs ->
  (forall n, In n (map qname qs ++ flat_map rr_names rrs) -> legal_name n /\ ends_only_in tld n) ->
  wire_size qs rrs <= 4096 ->
  u16 id -> legal_header h ->
  bytebuf b -> packet_len m <= b_size b -> 65536 <= psz ->
  (forall i, 0 <= i < packet_len m -> b_at b i = zget (message_packet m id h) i) ->
  exists s, message_parse b psz =
    Ok (mkmessage id h (map parsed_quest qs) (map parsed_rr an) (map parsed_rr ns) (map parsed_rr ar), s, packet_len m).
Proof.
  intros tld qs an ns ar id h b psz rrs m Hlq Hlr Hnames Hw Hid Hh Hb Hbs Hps Hat.
  assert (Hn : forall n, In n (map qname qs ++ flat_map rr_names rrs) -> legal_name n) by (intros n Hin; apply Hnames; exact Hin).
  destruct (message_calls_legal qs an ns ar Hlr Hn) as [Hleg Hsum].
  assert (Hsz : packet_len m <= 4096).
  { pose proof (fold_len _ enc_empty Hleg) as H. fold (run (message_calls qs an ns ar)) in H. fold m in H. change (packet_len enc_empty) with 12 in H. unfold rrs in Hw. lia. }
  apply message_roundtrip with (tld := tld); try assumption.
  - apply unpacked_small; assumption.
  - fold m. lia.
  - intros pre d post E. rewrite E in Hleg, Hsum. apply Forall_app in Hleg. destruct Hleg as [Hpre Hleg]. inversion Hleg as [|? ? _ Hpost]; subst.
    pose proof (fold_len pre enc_empty Hpre) as H. fold (run pre) in H. change (packet_len enc_empty) with 12 in H.
    rewrite map_app, sum_app in Hsum. cbn [map] in Hsum. rewrite sum_cons in Hsum. cbn [call_size] in Hsum.
    assert (0 <= sum (map call_size post)).
    { apply sum_map_nonneg. intros c. destruct c; cbn [call_size]; unfold name_size; rewrite ?len_zlen; try lia; try (pose proof (zlen_nonneg _ (dotted n)); lia). pose proof (zlen_nonneg _ d0). lia. }
    unfold rrs in Hw. lia.
Qed.
