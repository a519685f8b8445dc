(* Compression does not make a name shorter than two bytes, hence C02 for every
   message whose packet is small, however much compression saved. *)
From Verif Require Import Base Lemmas SpecDns Wire WireSafe WireNames WireEnc WireHost WireCalls WireCallsSpec WireRound WireSize.

Lemma compress_ge : forall fuel lab out cur x labels, 2 <= zlen lab -> 2 <= zlen (compress fuel lab out cur x labels).
Proof.
  induction fuel as [|fuel IH]; intros lab out cur x labels H; cbn [compress]; [exact H|].
  destruct (zget lab x =? 0); [exact H|]. destruct (find_label lab out cur x labels) as [o|].
  - rewrite short2net_val. rewrite zlen_app, !zlen_cons, zlen_nil. pose proof (zlen_nonneg _ (firstn (Z.to_nat x) lab)). lia.
  - destruct (negb _); [exact H|]. apply IH. exact H.
Qed.
Lemma host_ge : forall m dot n, legal_name n -> 2 <= snd (host m (Some (text dot n))).
Proof.
  intros m dot n (Hne & Hleg & Hlen). rewrite len_zlen in Hlen.
  destruct (mklabel_spec n [] (text dot n) Hne Hleg (text_denotes dot n Hne) ltac:(rewrite zlen_nil; lia)) as (lab & last & E1 & E2).
  cbn [app] in E1, E2. unfold host. change (zlen []) with 0 in E1. rewrite E1. cbv zeta. cbn [snd]. rewrite E2. apply compress_ge.
  rewrite zlen_app, zlen_cons, zlen_nil, wire_zlen. destruct n as [|l n]; [contradiction|]. rewrite dotted_cons, !zlen_app, zlen_cons, zlen_nil. pose proof (zlen_nonneg _ l). pose proof (zlen_nonneg _ (dotted n)). lia.
Qed.

Definition call_min (c : call) : Z :=
  match c with
  | CQd _ _ _ _ => 6
  | CRr _ _ _ _ _ _ => 10
  | CLong _ => 6
  | CIp4 _ => 6
  | CIp6 _ => 18
  | CName _ _ => 4
  | CSrv _ _ _ _ _ => 10
  | CRaw d => 2 + len d
  end.
Definition not_dropped (m : enc) (c : call) : Prop := match c with CRaw d => packet_len m + len d <= 4096 | _ => True end.
Lemma call_ge : forall m c, legal_call c -> not_dropped m c -> packet_len m + call_min c <= packet_len (do_call m c).
Proof.
  intros m c (Hc & Hn) Nd.
  destruct c as [dot n ty cl|sec dot n ty cl ttl|v|a|a|dot n|pr we po dot n|d]; cbn [call_name] in Hn; cbn [call_min not_dropped] in *; rewrite ?len_zlen in *;
   [|destruct sec| | | | | |]; cbn [do_call]; unfold message_qd, message_an, message_ns, message_ar, rrappend, rdata_long, rdata_ipv4, rdata_ipv6, rdata_raw, rdata_name, rdata_srv; cbv zeta;
   try match goal with |- context [host ?m0 (Some ?t)] => let H1 := fresh in let H2 := fresh in let H3 := fresh in destruct (host_len m0 dot n Hn) as [H1 H2]; pose proof (host_ge m0 dot n Hn) as H3; destruct (host m0 (Some t)) as [m1 k]; cbn [fst snd] in H1, H2, H3 end;
   cbn [fst]; rewrite ?packet_patch, ?packet_put, ?zlen_short, ?zlen_long in *; try (change (zlen [0;0]) with 2 in *).
  1-4: unfold packet_len in *; cbn [e_out] in *; lia.
  - lia.
  - destruct Hc as [_ Hc]. lia.
  - destruct Hc as [_ Hc]. lia.
  - lia.
  - lia.
  - replace (4096 <? packet_len m + zlen d) with false by lia. rewrite firstn_all2 by (unfold zlen; lia). lia.
Qed.
Lemma fold_ge : forall calls m top raw, Forall legal_call calls -> packet_len (fold_left do_call calls m) <= top -> top + raw <= 4096 -> (forall d, In (CRaw d) calls -> len d <= raw) ->
  packet_len m + sum (map call_min calls) <= packet_len (fold_left do_call calls m).
Proof.
  induction calls as [|c calls IH]; intros m top raw H T B Rw; cbn [fold_left map] in *; [change (sum []) with 0; lia|]. rewrite WireSize.sum_cons.
  inversion H as [|? ? Hc Hl]; subst. specialize (IH (do_call m c) top raw Hl T B ltac:(intros d I; apply Rw; right; exact I)).
  pose proof (fold_call_mono calls (do_call m c)) as M. pose proof (fold_call_mono [c] m) as M1. cbn [fold_left] in M1.
  pose proof (call_ge m c Hc) as G. assert (Nd : not_dropped m c) by (destruct c; cbn [not_dropped]; try exact I; specialize (Rw d (or_introl eq_refl)); lia). specialize (G Nd). lia.
Qed.

Lemma rr_calls_min : forall sec rs, sum (map call_min (flat_map (rr_calls sec) rs)) = sum (map (fun r => 10 + call_min (data_call (data r))) rs).
Proof. intros sec rs. induction rs as [|r rs IH]; [reflexivity|]. cbn [flat_map rr_calls app map]. rewrite !WireSize.sum_cons, IH. cbn [call_min]. lia. Qed.
Lemma quest_calls_min : forall qs, sum (map call_min (map quest_call qs)) = 6 * zlen qs.
Proof. induction qs as [|q qs IH]; [reflexivity|]. cbn [map]. rewrite WireSize.sum_cons, IH, zlen_cons. unfold quest_call. cbn [call_min]. lia. Qed.
Lemma sum_cap : forall (A : Type) (f : A -> Z) k l, (forall x, In x l -> f x <= k) -> sum (map f l) <= k * zlen l.
Proof.
  intros A f k. induction l as [|x l IH]; intros H; [unfold sum; cbn; lia|]. cbn [map]. rewrite WireSize.sum_cons, zlen_cons.
  pose proof (H x (or_introl eq_refl)). specialize (IH ltac:(intros y Hy; apply H; right; exact Hy)). lia.
Qed.
Lemma unpacked_tight : forall qs rrs, (forall n, In n (map qname qs ++ flat_map rr_names rrs) -> legal_name n) ->
  unpacked_size qs rrs <= 32 + 46 * (6 * zlen qs + sum (map (fun r => 10 + call_min (data_call (data r))) rrs)).
Proof.
  intros qs rrs Hn.
  assert (Sz : forall n, legal_name n -> name_size n <= 256) by (intros n (_ & _ & L); unfold name_size; lia).
  assert (Sq : sum (map (fun q => name_size (qname q)) qs) <= 256 * zlen qs) by (apply sum_cap; intros q I; apply Sz, Hn; apply in_or_app; left; apply in_map; exact I).
  assert (Sr : sum (map (fun r => rr_size r + 64) rrs) <= 46 * sum (map (fun r => 10 + call_min (data_call (data r))) rrs)).
  { apply sum_le. intros r I. assert (Hr : forall n, In n (rr_names r) -> name_size n <= 256) by (intros n J; apply Sz, Hn; apply in_or_app; right; apply in_flat_map; exists r; split; assumption).
    unfold rr_size. pose proof (Hr (owner r) (or_introl eq_refl)) as Ho. unfold rr_names in *. cbn [map]. rewrite WireSize.sum_cons. destruct (data r) as [ip|ip|d|n|p w q n]; cbn [data_names data_call call_min raw_size map] in *; try (pose proof (Hr n (or_intror (or_introl eq_refl))));
      rewrite ?WireSize.sum_cons; change (sum []) with 0; rewrite ?len_zlen; try (pose proof (zlen_nonneg _ d)); lia. }
  assert (Ss : forall l, sum (map (fun r => rr_size r + 64) l) = sum (map rr_size l) + 64 * zlen l) by (induction l as [|r l IH]; [reflexivity|]; cbn [map]; rewrite !WireSize.sum_cons, zlen_cons, IH; lia).
  rewrite Ss in Sr. unfold unpacked_size. rewrite !len_zlen. change (len rrs) with (zlen rrs). pose proof (zlen_nonneg _ qs). lia.
Qed.
Lemma message_roundtrip_tight : forall tld qs an ns ar id h b psz,
  let rrs := an ++ ns ++ ar in
  let m := run (message_calls qs an ns ar) in
  Forall legal_quest qs -> Forall legal_rr rrs ->
  (forall n, In n (map qname qs ++ flat_map rr_names rrs) -> legal_name n /\ ends_only_in tld n) ->
  packet_len m <= 1435 -> (forall r d, In r rrs -> data r = RRaw d -> len d <= 2660) ->
  u16 id -> legal_header h ->
  bytebuf b -> packet_len m <= b_size b -> 65536 <= psz ->
  (forall i, 0 <= i < packet_len m -> b_at b i = zget (message_packet m id h) i) ->
  exists s, message_parse b psz =
    Ok (mkmessage id h (map parsed_quest qs) (map parsed_rr an) (map parsed_rr ns) (map parsed_rr ar), s, packet_len m).
Proof.
  intros tld qs an ns ar id h b psz rrs m Hlq Hlr Hnames Hw Hraw Hid Hh Hb Hbs Hps Hat.
  assert (Hn : forall n, In n (map qname qs ++ flat_map rr_names rrs) -> legal_name n) by (intros n Hin; apply Hnames; exact Hin).
  destruct (message_calls_legal qs an ns ar Hlr Hn) as [Hleg _].
  assert (Rw : forall d, In (CRaw d) (message_calls qs an ns ar) -> len d <= 2660).
  { assert (G : forall sec l, (forall r, In r l -> In r rrs) -> forall d, In (CRaw d) (flat_map (rr_calls sec) l) -> len d <= 2660).
    { intros sec l Il d I. apply in_flat_map in I as (r & Ir & [K|[K|[]]]); [discriminate K|]. apply (Hraw r d (Il r Ir)). destruct (data r); cbn [data_call] in K; try discriminate K. injection K as ->. reflexivity. }
    intros d I. unfold message_calls in I. apply in_app_or in I as [I|I]; [apply in_map_iff in I as (q & K & _); discriminate K|].
    apply in_app_or in I as [I|I]; [apply (G An an) in I; [exact I|intros r J; unfold rrs; apply in_or_app; auto]|].
    apply in_app_or in I as [I|I]; [apply (G Ns ns) in I|apply (G Ar ar) in I]; try exact I; intros r J; unfold rrs; apply in_or_app; right; apply in_or_app; auto. }
  pose proof (fold_ge _ enc_empty 1435 2660 Hleg Hw ltac:(lia) Rw) as Ge. fold (run (message_calls qs an ns ar)) in Ge. fold m in Ge. change (packet_len enc_empty) with 12 in Ge.
  unfold message_calls in Ge. rewrite !map_app, !sum_app, quest_calls_min, !rr_calls_min in Ge.
  apply message_roundtrip with (tld := tld); try assumption.
  - pose proof (unpacked_tight qs rrs Hn) as U. unfold rrs in U. rewrite !map_app, !sum_app in U. fold rrs in U. fold rrs. lia.
  - fold m. lia.
  - intros pre d post E. pose proof (fold_call_mono (CRaw d :: post) (run pre)) as M. unfold run in M. rewrite <- fold_left_app, <- E in M. fold (run pre) in M. fold (run (message_calls qs an ns ar)) in M. fold m in M.
    specialize (Rw d ltac:(rewrite E; apply in_or_app; right; left; reflexivity)). lia.
Qed.
