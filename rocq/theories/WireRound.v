(* Property C02: what is written with the message_* calls parses back. *)
From Verif Require Import Base Lemmas SpecDns Wire WireSafe WireNames WireEnc WireHost WireCalls WireCallsSpec.

(* What the parser is expected to return. *)
Definition parsed_quest (q : quest) : question := mkquestion (dotted (qname q)) (qtype q) (qclass q).
Definition parsed_known (ty : Z) (d : rdata) : known :=
  match d with
  | RAddr4 ip => KA ip
  | RAddr6 ip => KAAAA ip
  | RRaw d => if ty =? 1 then KA d else if ty =? 28 then KAAAA d else KNone
  | RName n => KName (dotted n)
  | RSrv p w q n => KSrv p w q (dotted n)
  end.
Definition parsed_rdata (d : rdata) : option (list Z) :=
  match d with
  | RAddr4 ip => Some ip
  | RAddr6 ip => Some ip
  | RRaw d => Some d
  | RName _ => None
  | RSrv _ _ _ _ => None
  end.
Definition parsed_rr (r : rr) : resource :=
  mkresource (dotted (owner r)) (rtype r) (rclass r) (rttl r) (raw_size (data r)) (parsed_rdata (data r)) (parsed_known (rtype r) (data r)).

(* The buffer agrees with the packet beyond the header. *)
Definition agree (b : buffer) (out : list Z) : Prop := forall i, 12 <= i < zlen out -> b_at b i = zget out i.

Lemma agree_prefix : forall b out x, agree b (out ++ x) -> agree b out.
Proof. intros b out x H i Hi. rewrite H by (rewrite zlen_app; pose proof (zlen_nonneg _ x); lia). apply zget_app_l. lia. Qed.

Lemma agree_seg : forall b a l c, agree b (a ++ l ++ c) -> 12 <= zlen a -> seg (b_at b) (zlen a) l.
Proof.
  intros b a l c H Ha i Hi. rewrite H by (rewrite !zlen_app; pose proof (zlen_nonneg _ c); lia). apply seg_self. exact Hi.
Qed.

Lemma net2short_seg : forall b p v, bytebuf b -> 0 <= p -> p + 2 <= b_size b -> seg (b_at b) p (short2net v) -> u16 v ->
  net2short b p = Ok (v, p + 2).
Proof.
  intros b p v Hb Hp Hp2 Hs Hv. unfold u16 in Hv. rewrite short2net_val in Hs. apply seg_cons in Hs. destruct Hs as [H0 Hs]. apply seg_cons in Hs. destruct Hs as [H1 _].
  unfold net2short. rewrite !rd_eq by lia. cbn [bind]. rewrite net2short_val by apply Hb. rewrite H0, H1. f_equal. f_equal. lia.
Qed.

Lemma net2long_seg : forall b p v, bytebuf b -> 0 <= p -> p + 4 <= b_size b -> seg (b_at b) p (long2net v) -> u32 v ->
  net2long b p = Ok (v, p + 4).
Proof.
  intros b p v Hb Hp Hp2 Hs Hv. unfold u32 in Hv. rewrite long2net_val in Hs. apply seg_cons in Hs. destruct Hs as [H0 Hs]. apply seg_cons in Hs. destruct Hs as [H1 Hs].
  apply seg_cons in Hs. destruct Hs as [H2 Hs]. apply seg_cons in Hs. destruct Hs as [H3 _].
  replace (p + 1 + 1) with (p + 2) in * by lia. replace (p + 2 + 1) with (p + 3) in * by lia.
  unfold net2long. rewrite !rd_eq by lia. cbn [bind]. rewrite net2long_val by apply Hb. rewrite H0, H1, H2, H3. f_equal. f_equal. lia.
Qed.

Lemma rdn_seg : forall b p l, 0 <= p -> p + zlen l <= b_size b -> seg (b_at b) p l -> rdn b p (zlen l) = Ok l.
Proof.
  intros b p l Hp Hl Hs. rewrite rdn_eq by (pose proof (zlen_nonneg _ l); lia). f_equal.
  unfold zlen at 1. rewrite Nat2Z.id. rewrite <- region_map. apply seg_region. exact Hs.
Qed.

Section Round.
Variable tld : label.

Lemma no_clash : forall a b, ends_only_in tld a -> ends_only_in tld b -> ~ clash a b.
Proof.
  intros a b (p & Ea & Ha) (q & Eb & Hb) (s & r & Hs & Hr & [x Hx] & [y Hy]).
  assert (exists s', s = s' ++ [tld]) as [s' Es].
  { destruct (exists_last Hs) as (s' & z & Es). exists s'. rewrite Es in *. rewrite Ea, app_assoc in Hx. apply app_inj_tail in Hx. destruct Hx as [_ ->]. reflexivity. }
  destruct (exists_last Hr) as (r' & z & Er). rewrite Es, Er in Hy.
  replace (y ++ (s' ++ [tld]) ++ r' ++ [z]) with ((y ++ s' ++ [tld] ++ r') ++ [z]) in Hy by (rewrite <- !app_assoc; reflexivity).
  rewrite Eb in Hy. apply app_inj_tail in Hy. destruct Hy as [Hq _]. apply Hb. rewrite Hq.
  apply in_or_app. right. apply in_or_app. right. left. reflexivity.
Qed.

(* Encoder state m (with table entries ents) against parser state s. *)
Definition sim (m : enc) (ents : list entry) (lim : Z) (s : pst) : Prop :=
  exists names, einv ents (e_out m) names /\ e_labels m = map en_off ents /\
    Forall (ends_only_in tld) names /\
    ((ents = [] /\ packet_len m = 12 /\ ps_names s = [] /\ lim = 0) \/
     (lim <= ps_len s /\ 0 <= lim <= 4095 /\ (forall e, In e ents -> en_rest e = [] -> en_off e <= lim) /\
      exists e, In e ents /\ en_lit e = [tld])).

Lemma new_ents_rest : forall p base T e, In e (new_ents base p T) -> en_rest e = T.
Proof. induction p as [|l p IH]; intros base T e H; cbn [new_ents] in H; [contradiction|]. destruct H as [<-|H]; [reflexivity|]. eapply IH; exact H. Qed.

Lemma new_ents_off : forall p base T e, In e (new_ents base p T) -> base <= en_off e <= base + zlen (wire p).
Proof.
  induction p as [|l p IH]; intros base T e H; cbn [new_ents] in H; [contradiction|]. rewrite zlen_wire_cons.
  pose proof (zlen_nonneg _ l). pose proof (zlen_nonneg _ (wire p)).
  destruct H as [<-|H]; [cbn [en_off]; lia|]. apply IH in H. lia.
Qed.

Lemma new_ents_last : forall p base T z, exists e, In e (new_ents base (p ++ [z]) T) /\ en_lit e = [z].
Proof.
  induction p as [|l p IH]; intros base T z; cbn [app new_ents].
  - eexists. split; [left; reflexivity|reflexivity].
  - destruct (IH (base + 1 + zlen l) T z) as (e & H1 & H2). exists e. split; [right; exact H1|exact H2].
Qed.

(* Reading back the name written by a call. *)
Lemma name_step : forall m ents lim s c n b psz slot,
  sim m ents lim s -> (ents = [] -> bytes_before c = 0) -> call_name c = Some n -> legal_name n -> ends_only_in tld n ->
  packet_len (do_call m c) <= 16384 ->
  bytebuf b -> agree b (e_out (do_call m c)) -> packet_len (do_call m c) <= b_size b -> 65536 <= psz ->
  0 <= slot -> slot + 8 <= psz -> 16 <= ps_len s -> ps_len s + zlen (dotted n) + 1 <= 65535 ->
  exists w ents' lim',
    e_out (do_call m c) = (e_out m ++ lead c (zlen w)) ++ w ++ trail c /\
    (2 <= zlen w <= zlen (dotted n) + 1 /\ zlen (dotted n) <= 255) /\
    label_parse b psz s slot (packet_len m + bytes_before c) = Ok (pst_after s (dotted n), packet_len m + bytes_before c + zlen w, dotted n) /\
    (forall s', ps_len (pst_after s (dotted n)) <= ps_len s' -> sim (do_call m c) ents' lim' s') /\
    ps_len s <= ps_len (pst_after s (dotted n)) <= ps_len s + zlen (dotted n) + 1.
Proof.
  intros m ents lim s c n b psz slot (names & Hinv & Hlab & Hends & Hcase) Hbb0 Hcn Hn Hend Hsz Hb Hag Hbs Hps Hs0 Hs8 Hl0 Hbud.
  destruct (call_name_spec _ _ _ _ _ Hinv Hlab Hcn Hn Hsz) as (p & T & tl & k & Hp & Ht & Hout & Hk & Hlab' & Hcomp & H5).
  set (w := wire p ++ tl) in *. set (o1 := e_out m ++ lead c (zlen w)) in *.
  assert (Ho1 : zlen o1 = packet_len m + bytes_before c) by (unfold o1; rewrite zlen_app, lead_len; reflexivity).
  assert (Hinv1 : einv ents o1 names) by (apply einv_app; [exact Hinv|apply lead_bytes]).
  assert (Hinv2 : einv (ents ++ firstn k (new_ents (packet_len m + bytes_before c) p T)) (e_out (do_call m c)) (names ++ [n])).
  { rewrite Hout, app_assoc. apply einv_app; [|apply trail_bytes]. rewrite <- Ho1. apply einv_host; try assumption. lia. }
  assert (Hnlen : zlen (dotted n) <= 255) by (destruct Hn as (_ & _ & H); rewrite len_zlen in H; exact H).
  assert (Hw : zlen w = zlen (wire p) + zlen tl) by (unfold w; apply zlen_app).
  destruct Hinv1 as (Hb1 & H121 & HF1) eqn:EI. clear EI.
  destruct (tail_first _ _ _ _ _ HF1 ltac:(lia) Ht) as (Htb & Htl & Ht0).
  assert (Hwn : zlen (dotted n) = zlen (wire p) + zlen (wire T)) by (rewrite <- wire_dotted, Hp, wire_app, zlen_app; reflexivity).
  pose proof (zlen_nonneg _ (wire p)). pose proof (zlen_nonneg _ (wire T)).
  assert (Hlegn : Forall legal_label n) by apply Hn.
  assert (Hlegs : Forall legal_label p /\ Forall legal_label T) by (rewrite Hp in Hlegn; apply Forall_app in Hlegn; exact Hlegn).
  assert (Htw : zlen tl <= 1 + zlen (wire T)).
  { destruct Ht as [[-> ->]|[Hne (e & _ & _ & ->)]]; [change (zlen [0]) with 1; change (zlen (wire [])) with 0; lia|].
    unfold ptr_bytes. rewrite !zlen_cons, zlen_nil. destruct T as [|l T]; [contradiction|]. rewrite zlen_wire_cons.
    destruct Hlegs as [_ HT]. inversion HT as [|? ? Hl _]; subst. destruct (legal_plain _ Hl) as (_ & _ & H63 & _). pose proof (zlen_nonneg _ (wire T)). lia. }
  assert (Hw2 : 2 <= zlen w).
  { rewrite Hw. destruct T as [|l T].
    - destruct p as [|l p]; [destruct Hn as (Hne & _); rewrite Hp in Hne; contradiction|]. rewrite zlen_wire_cons.
      pose proof (zlen_nonneg _ (wire p)). destruct Hlegs as [HT _]. inversion HT as [|? ? Hl _]; subst. destruct (legal_plain _ Hl) as (_ & _ & H63 & _). lia.
    - destruct Ht as [[E _]|[Hne (e & _ & _ & ->)]]; [discriminate|]. unfold ptr_bytes. rewrite !zlen_cons, zlen_nil. lia. }
  assert (Hlimname : lim <= ps_len s /\ lim <= 4095 /\ (forall e, In e ents -> en_rest e = [] -> en_off e <= lim)).
  { destruct Hcase as [(-> & _ & _ & ->)|(H1 & H2 & H3 & _)]; [|auto with zarith]. split; [lia|]. split; [lia|]. intros e []. }
  destruct Hlimname as (HL1 & HL2 & HL3).
  assert (Hname : name_at_simple (b_at b) (packet_len (do_call m c)) lim (zlen o1) n (zlen o1 + zlen w)).
  { apply host_denotes with (ents := ents) (names := names) (p := p) (T := T) (tl := tl); try assumption; try lia.
    - rewrite Forall_forall in *. intros n' Hn'. apply no_clash; [exact Hend|apply Hends; exact Hn'].
    - intros i Hi. fold w in Hi. rewrite Hag; [|rewrite Hout, !zlen_app; pose proof (zlen_nonneg _ (trail c)); lia].
      rewrite Hout, app_assoc. apply zget_app_l. rewrite zlen_app. exact (proj2 Hi).
    - unfold packet_len. rewrite Hout, !zlen_app. pose proof (zlen_nonneg _ (trail c)). fold w. lia. }
  exists w.
  assert (Hparse : label_parse b psz s slot (packet_len m + bytes_before c) = Ok (pst_after s (dotted n), packet_len m + bytes_before c + zlen w, dotted n)).
  { rewrite <- Ho1. apply label_parse_simple with (N := packet_len (do_call m c)) (lim := lim); try assumption; try lia.
    - eapply Forall_impl; [|exact Hlegn]. intros l [Hl _]. cbv beta. lia.
    - eapply Forall_impl; [|exact Hlegn]. intros l Hl. destruct (legal_plain _ Hl) as (_ & _ & _ & Hz & _). exact Hz. }
  pose proof (pst_after_len s (dotted n)) as Hpal.
  destruct Hcase as [(He & Hp12 & Hpn & Hlim0)|(H1 & H2 & H3 & e0 & He0 & Hl0')].
  - (* first name *)
    subst ents. assert (T = []) as ->.
    { destruct Ht as [[-> _]|[_ (e & [] & _)]]. reflexivity. }
    rewrite app_nil_r in Hp. subst p.
    assert (Hpal2 : ps_len (pst_after s (dotted n)) = ps_len s + zlen (dotted n) + 1) by (unfold pst_after; rewrite Hpn; reflexivity).
    assert (Hkk : firstn k (new_ents (packet_len m + bytes_before c) n []) = new_ents (packet_len m + bytes_before c) n []).
    { apply firstn_all2. rewrite new_ents_length. rewrite Hlab in Hk. cbn [map] in Hk. rewrite zlen_nil in Hk. unfold MAX_NUM_LABELS in Hk. pose proof (legal_length n Hn). lia. }
    rewrite Hkk in *.
    rewrite (Hbb0 eq_refl), Z.add_0_r in *.
    exists (new_ents (packet_len m) n []), (packet_len m + zlen (wire n)).
    split; [exact Hout|]. split; [lia|]. split; [exact Hparse|]. split; [|lia].
    change (zlen (wire [])) with 0 in *.
    intros s' Hs'. exists (names ++ [n]). split; [exact Hinv2|]. split; [exact Hlab'|]. split; [apply Forall_app; split; [exact Hends|constructor; [exact Hend|constructor]]|].
    right. split; [lia|]. split; [lia|]. split.
    + intros e He Hr. apply new_ents_off in He. lia.
    + destruct Hend as (q & Eq & _). rewrite Eq. apply new_ents_last.
  - (* later names share at least the top level label *)
    assert (HTne : T <> []).
    { intros HT. destruct Hend as (q & Eq & _). apply (Hcomp HT [tld] e0); try assumption; [discriminate|]. exists q. exact Eq. }
    exists (ents ++ firstn k (new_ents (packet_len m + bytes_before c) p T)), lim.
    split; [exact Hout|]. split; [lia|]. split; [exact Hparse|]. split; [|lia].
    intros s' Hs'. exists (names ++ [n]). split; [exact Hinv2|]. split; [exact Hlab'|]. split; [apply Forall_app; split; [exact Hends|constructor; [exact Hend|constructor]]|].
    right. split; [lia|]. split; [exact H2|]. split.
    + intros e He Hr. apply in_app_or in He. destruct He as [He|He]; [apply H3; assumption|].
      exfalso. apply HTne. rewrite <- Hr. symmetry. apply (new_ents_rest p (packet_len m + bytes_before c)).
      rewrite <- (firstn_skipn k). apply in_or_app. left. exact He.
    + exists e0. split; [apply in_or_app; left; exact He0|exact Hl0'].
Qed.

Lemma sim_nonempty : forall m ents lim s, sim m ents lim s -> 12 < packet_len m -> 
  forall s', ps_len s <= ps_len s' -> sim m ents lim s'.
Proof.
  intros m ents lim s (names & H1 & H2 & H3 & [(_ & E & _)|(H4 & H5)]) H12 s' Hs'; [lia|].
  exists names. repeat (split; [assumption|]). right. split; [lia|exact H5].
Qed.

Lemma call_app_len : forall m c, packet_len m <= packet_len (do_call m c).
Proof. intros. exact (fold_call_mono [c] m). Qed.

(* One question. *)
Lemma quest_step : forall m ents lim s q b psz slot n,
  sim m ents lim s -> legal_quest q -> legal_name (qname q) -> ends_only_in tld (qname q) ->
  let m' := do_call m (quest_call q) in
  packet_len m' <= 16384 -> bytebuf b -> agree b (e_out m') -> packet_len m' <= b_size b -> 65536 <= psz ->
  0 <= slot -> slot + 16 <= psz -> 16 <= ps_len s -> ps_len s + name_size (qname q) <= 65535 ->
  exists s' ents' lim',
    qd_parse b psz s (S n) slot (packet_len m) =
      ('(s2, p2, qs) <- qd_parse b psz s' n (slot + 16) (packet_len m') ;; Ok (s2, p2, parsed_quest q :: qs)) /\
    sim m' ents' lim' s' /\ ps_len s <= ps_len s' <= ps_len s + name_size (qname q) /\ 12 < packet_len m'.
Proof.
  intros m ents lim s q b psz slot n Hsim [Hty Hcl] Hn Hend m' Hsz Hb Hag Hbs Hps Hs0 Hs16 Hl0 Hbud.
  unfold name_size in *. rewrite len_zlen in *.
  destruct (name_step m ents lim s (quest_call q) (qname q) b psz slot Hsim) as (w & ents' & lim' & Hout & Hw & Hp & Hsim' & Hlen);
    try assumption; try reflexivity; try lia.
  fold m' in Hout, Hp, Hsim', Hag, Hbs. cbn [bytes_before quest_call] in Hp. rewrite Z.add_0_r in Hp.
  assert (H12 : 12 <= packet_len m) by (destruct Hsim as (? & (_ & H & _) & _); exact H).
  cbn [lead quest_call trail] in Hout. rewrite app_nil_r in Hout.
  assert (Hpl : packet_len m' = packet_len m + zlen w + 4).
  { unfold packet_len. rewrite Hout, !zlen_app, !zlen_short. lia. }
  exists (pst_after s (dotted (qname q))), ents', lim'. split; [|split; [apply Hsim'; lia|split; [lia|lia]]].
  cbn [qd_parse]. rewrite Hp. cbn [bind]. unfold SIZEOF_QUESTION. rewrite wr_eq by lia. cbn [bind].
  assert (S1 : seg (b_at b) (packet_len m + zlen w) (short2net (qtype q))).
  { replace (packet_len m + zlen w) with (zlen (e_out m ++ w)) by (rewrite zlen_app; reflexivity). apply agree_seg with (c := short2net (qclass q)).
    - rewrite Hout in Hag. rewrite <- app_assoc. exact Hag.
    - rewrite zlen_app. fold (packet_len m). lia. }
  assert (S2 : seg (b_at b) (packet_len m + zlen w + 2) (short2net (qclass q))).
  { replace (packet_len m + zlen w + 2) with (zlen (e_out m ++ w ++ short2net (qtype q))) by (rewrite !zlen_app, zlen_short; unfold packet_len; lia).
    apply agree_seg with (c := []).
    - rewrite Hout in Hag. rewrite app_nil_r, <- !app_assoc. exact Hag.
    - rewrite zlen_app. fold (packet_len m). pose proof (zlen_nonneg _ (w ++ short2net (qtype q))). lia. }
  rewrite (net2short_seg b (packet_len m + zlen w) _ Hb ltac:(lia) ltac:(lia) S1 Hty). cbn [bind].
  rewrite (net2short_seg b (packet_len m + zlen w + 2) _ Hb ltac:(lia) ltac:(lia) S2 Hcl). cbn [bind].
  replace (packet_len m + zlen w + 2 + 2) with (packet_len m') by lia. reflexivity.
Qed.

Lemma quests_round : forall qs m ents lim s b psz slot,
  sim m ents lim s -> Forall legal_quest qs -> Forall (fun q => legal_name (qname q) /\ ends_only_in tld (qname q)) qs ->
  let m' := fold_left do_call (map quest_call qs) m in
  packet_len m' <= 16384 -> bytebuf b -> agree b (e_out m') -> packet_len m' <= b_size b -> 65536 <= psz ->
  0 <= slot -> slot + 16 * len qs <= psz -> (qs <> [] -> 16 <= ps_len s) ->
  ps_len s + sum (map (fun q => name_size (qname q)) qs) <= 65535 ->
  exists s' ents' lim',
    qd_parse b psz s (length qs) slot (packet_len m) = Ok (s', packet_len m', map parsed_quest qs) /\
    sim m' ents' lim' s' /\ ps_len s <= ps_len s' <= ps_len s + sum (map (fun q => name_size (qname q)) qs) /\ (qs = [] -> s' = s) /\ (qs <> [] -> 12 < packet_len m').
Proof.
  induction qs as [|q qs IH]; intros m ents lim s b psz slot Hsim Hleg Hnames m' Hsz Hb Hag Hbs Hps Hs0 Hs16 Hl0 Hbud.
  - exists s, ents, lim. cbn [map sum fold_right]. split; [reflexivity|]. split; [exact Hsim|]. split; [lia|]. split; [auto|]. contradiction.
  - inversion Hleg as [|? ? Hq Hleg']; subst. inversion Hnames as [|? ? [Hn He] Hnames']; subst.
    cbn [map fold_left] in m'. set (m1 := do_call m (quest_call q)) in *.
    pose proof (fold_call_mono (map quest_call qs) m1) as Hm1. fold m' in Hm1.
    destruct (fold_call_app (map quest_call qs) m1) as [x Ex]. fold m' in Ex.
    cbn [map sum fold_right] in Hbud. change (fold_right Z.add 0) with sum in Hbud.
    assert (Hsum : 0 <= sum (map (fun q => name_size (qname q)) qs)).
    { clear. induction qs as [|q qs IH]; cbn [map sum fold_right]; [lia|]. change (fold_right Z.add 0) with sum. unfold name_size at 1. rewrite len_zlen. pose proof (zlen_nonneg _ (dotted (qname q))). lia. }
    specialize (Hl0 ltac:(discriminate)). rewrite len_zlen in *. rewrite zlen_cons in Hs16. pose proof (zlen_nonneg _ qs).
    destruct (quest_step m ents lim s q b psz slot (length qs)) as (s1 & ents1 & lim1 & E1 & Hsim1 & Hlen1 & H12); try assumption; fold m1; try lia.
    { rewrite Ex in Hag. apply agree_prefix in Hag. exact Hag. }
    fold m1 in E1, Hsim1, H12.
    destruct (IH m1 ents1 lim1 s1 b psz (slot + 16)) as (s2 & ents2 & lim2 & E2 & Hsim2 & Hlen2 & _ & _); try assumption; fold m'; rewrite ?len_zlen; try lia.
    exists s2, ents2, lim2. split.
    { cbn [length]. rewrite E1, E2. reflexivity. }
    split; [exact Hsim2|]. cbn [map sum fold_right]. change (fold_right Z.add 0) with sum. split; [lia|]. split; [discriminate|]. intros _. lia.
Qed.

Lemma sim_ents : forall m ents lim s, sim m ents lim s -> 12 < packet_len m -> ents <> [].
Proof.
  intros m ents lim s (names & H1 & H2 & H3 & [(_ & E & _)|(H4 & H5 & H6 & e & He & _)]) H12; [lia|]. destruct ents; [contradiction|discriminate].
Qed.

Lemma sim_plain : forall m c ents lim s, sim m ents lim s -> 12 < packet_len m -> call_name c = None -> legal_call c ->
  forall s', ps_len s <= ps_len s' -> sim (do_call m c) ents lim s'.
Proof.
  intros m c ents lim s (names & H1 & H2 & H3 & [(_ & E & _)|(H4 & H5)]) H12 Hc Hl s' Hs'; [lia|].
  destruct (call_plain_spec m c Hc Hl) as (x & E1 & E2 & E3). exists names. rewrite E1, E3. split; [apply einv_app; assumption|].
  repeat (split; [assumption|]). right. split; [lia|exact H5].
Qed.

(* The raw bytes of address and uninterpreted data. *)
Definition raw_bytes (d : rdata) : option (list Z) :=
  match d with RAddr4 ip => Some ip | RAddr6 ip => Some ip | RRaw d => Some d | _ => None end.

Definition raw_fits (m : enc) (d : rdata) : Prop :=
  match d with RRaw d => packet_len m + len d <= 4096 | _ => True end.

Lemma raw_call : forall m d l ty, raw_bytes d = Some l -> data_fits ty d -> raw_fits m d ->
  e_out (do_call m (data_call d)) = e_out m ++ short2net (zlen l) ++ l /\
  call_name (data_call d) = None /\ legal_call (data_call d) /\ raw_size d = zlen l /\
  parsed_rdata d = Some l /\ 0 <= zlen l < 65536 /\
  ~ In ty [2; 5; 12; 33] /\ (ty = 1 -> zlen l = 4) /\ (ty = 28 -> zlen l = 16) /\
  parsed_known ty d = (if ty =? 1 then KA l else if ty =? 28 then KAAAA l else KNone).
Proof.
  intros m d l ty Hr Hf Hfit.
  destruct d as [ip|ip|d|n|p w q n]; cbn [raw_bytes] in Hr; try discriminate; injection Hr as <-; cbn [data_fits] in Hf.
  - destruct Hf as (-> & H4 & Hb). rewrite len_zlen in H4. cbn [data_call do_call]. unfold rdata_ipv4. cbn [put e_out raw_size parsed_rdata parsed_known].
    rewrite H4, <- app_assoc. split; [reflexivity|]. split; [reflexivity|]. split; [split; [split; [exact Hb|exact H4]|exact I]|].
    repeat (split; [first [reflexivity|lia|discriminate]|]).
    split; [cbn; lia|]. split; [intros _; reflexivity|]. split; [discriminate|reflexivity].
  - destruct Hf as (-> & H4 & Hb). rewrite len_zlen in H4. cbn [data_call do_call]. unfold rdata_ipv6. cbn [put e_out raw_size parsed_rdata parsed_known].
    rewrite H4, <- app_assoc. split; [reflexivity|]. split; [reflexivity|]. split; [split; [split; [exact Hb|exact H4]|exact I]|].
    repeat (split; [first [reflexivity|lia|discriminate]|]).
    split; [cbn; lia|]. split; [discriminate|]. split; [intros _; reflexivity|reflexivity].
  - destruct Hf as (Hb & Hl & Hty & H1 & H28). cbn [raw_fits] in Hfit. rewrite len_zlen in *.
    assert (Hle : (4096 <? packet_len m + zlen d) = false) by lia. clear Hfit. pose proof (zlen_nonneg _ d) as Hd0.
    cbn [data_call do_call]. unfold rdata_raw. cbn [put e_out raw_size parsed_rdata parsed_known].
    rewrite Hle. split.
    { rewrite <- app_assoc. f_equal. f_equal. apply firstn_all2. unfold zlen. lia. }
    split; [reflexivity|]. split; [split; [split; [exact Hb|exact Hl]|exact I]|].
    rewrite len_zlen. split; [reflexivity|]. split; [reflexivity|]. split; [lia|]. split; [exact Hty|]. split; [exact H1|]. split; [exact H28|reflexivity].
Qed.

Lemma isname_false : forall ty, ~ In ty [2; 5; 12; 33] ->
  (ty =? QTYPE_NS) || (ty =? QTYPE_CNAME) || (ty =? QTYPE_PTR) || (ty =? QTYPE_SRV) = false /\
  (ty =? QTYPE_NS) || (ty =? QTYPE_CNAME) || (ty =? QTYPE_PTR) = false /\ (ty =? QTYPE_SRV) = false.
Proof.
  intros ty H. unfold QTYPE_NS, QTYPE_CNAME, QTYPE_PTR, QTYPE_SRV. cbn [In] in H.
  assert (ty <> 2 /\ ty <> 5 /\ ty <> 12 /\ ty <> 33) by (repeat split; intros ->; apply H; tauto). lia.
Qed.

(* One record. *)
Lemma rr_step : forall sec m ents lim s r b psz slot,
  sim m ents lim s -> legal_rr r -> Forall (fun n => legal_name n /\ ends_only_in tld n) (rr_names r) ->
  let m' := fold_left do_call (rr_calls sec r) m in
  raw_fits (do_call m (CRr sec true (owner r) (rtype r) (rclass r) (rttl r))) (data r) ->
  packet_len m' <= 16384 -> bytebuf b -> agree b (e_out m') -> packet_len m' <= b_size b -> 65536 <= psz ->
  0 <= slot -> slot + 64 <= psz -> 16 <= ps_len s -> ps_len s + rr_size r <= 65535 ->
  exists s' ents' lim',
    rr_parse1 b psz s slot (packet_len m) = Ok (s', packet_len m', parsed_rr r) /\
    sim m' ents' lim' s' /\ ps_len s <= ps_len s' <= ps_len s + rr_size r /\ 12 < packet_len m'.
Proof.
  intros sec m ents lim s r b psz slot Hsim (Hty & Hcl & Httl & Hfits) Hnames m' Hraw Hsz Hb Hag Hbs Hps Hs0 Hs64 Hl0 Hbud.
  set (c1 := CRr sec true (owner r) (rtype r) (rclass r) (rttl r)).
  set (m1 := do_call m c1). fold c1 in Hraw. fold m1 in Hraw. assert (Em' : m' = do_call m1 (data_call (data r))) by reflexivity.
  clearbody m'. subst m'. set (m2 := do_call m1 (data_call (data r))) in *.
  pose proof (call_app_len m1 (data_call (data r))) as Hm12. fold m2 in Hm12.
  destruct (do_call_app m1 (data_call (data r))) as [x Ex]. fold m2 in Ex.
  unfold rr_names in Hnames. inversion Hnames as [|? ? [Hon Hoe] Hdn]; subst.
  assert (Hrs : rr_size r = zlen (dotted (owner r)) + 1 + sum (map name_size (data_names (data r))) + raw_size (data r) + 46).
  { unfold rr_size, rr_names. cbn [map sum fold_right]. change (fold_right Z.add 0) with sum. unfold name_size at 1. rewrite len_zlen. lia. }
  assert (Hrs0 : 0 <= raw_size (data r) /\ 0 <= sum (map name_size (data_names (data r)))).
  { clear. unfold name_size. destruct (data r) as [| |d|n|p w q n]; cbn [raw_size data_names map sum fold_right]; rewrite ?len_zlen;
      try (pose proof (zlen_nonneg _ d)); try (pose proof (zlen_nonneg _ (dotted n))); lia. }
  rewrite Hrs in *. clear Hrs. pose proof (zlen_nonneg _ (dotted (owner r))) as Hdo.
  assert (Hag1 : agree b (e_out m1)) by (rewrite Ex in Hag; apply agree_prefix in Hag; exact Hag).
  destruct (name_step m ents lim s c1 (owner r) b psz slot Hsim) as (w & ents1 & lim1 & Hout & Hw & Hp & Hsim1 & Hlen);
    try assumption; try reflexivity; fold m1; try assumption; try lia.
  fold m1 in Hout, Hsim1. cbn [bytes_before c1] in Hp. rewrite Z.add_0_r in Hp.
  set (s1 := pst_after s (dotted (owner r))) in *.
  assert (H12 : 12 <= packet_len m) by (destruct Hsim as (? & (_ & H & _) & _); exact H).
  cbn [lead c1 trail] in Hout. rewrite app_nil_r in Hout.
  assert (Hpl : packet_len m1 = packet_len m + zlen w + 8).
  { unfold packet_len. rewrite Hout, !zlen_app, !zlen_short, zlen_long. lia. }
  assert (Hs1 : sim m1 ents1 lim1 s1) by (apply Hsim1; lia).
  assert (H12' : 12 < packet_len m1) by lia.
  pose proof (sim_ents _ _ _ _ Hs1 H12') as Hne1.
  set (q := packet_len m + zlen w) in *.
  assert (S1 : seg (b_at b) q (short2net (rtype r) ++ short2net (rclass r) ++ long2net (rttl r))).
  { replace q with (zlen (e_out m ++ w)) by (unfold q; rewrite zlen_app; reflexivity). apply agree_seg with (c := []).
    - rewrite Hout in Hag1. rewrite app_nil_r, <- !app_assoc. exact Hag1.
    - rewrite zlen_app. fold (packet_len m). lia. }
  apply seg_app in S1. destruct S1 as [Sty S1]. apply seg_app in S1. destruct S1 as [Scl Sttl]. rewrite !zlen_short in *.
  (* the common prefix of the parse *)
  assert (Hpre : forall rl k, seg (b_at b) (packet_len m1) (short2net rl) -> u16 rl -> rl + packet_len m1 + 2 <= 65535 -> ps_len s1 + rl <= 65535 -> packet_len m1 + 2 <= b_size b ->
    (forall ty cl tt nm,
       ty = rtype r -> cl = rclass r -> tt = rttl r -> nm = dotted (owner r) ->
       (let isname := (ty =? QTYPE_NS) || (ty =? QTYPE_CNAME) || (ty =? QTYPE_PTR) || (ty =? QTYPE_SRV) in
    '(s, rdlength, rdata) <-
      (if isname then Ok (s1, 0, None)
       else
         _ <- wr psz (ps_len s1) rl ;;
         data <- rdn b (packet_len m1 + 2) rl ;;
         Ok (alloc s1 rl, rl, Some data)) ;;
    if ty =? QTYPE_A then
      if MAX_PACKET_LEN <? ps_len s + INET_ADDRSTRLEN then Rej
      else
        _ <- wr psz (ps_len s) INET_ADDRSTRLEN ;;
        ip <- rdn b (packet_len m1 + 2) 4 ;;
        Ok (alloc s INET_ADDRSTRLEN, packet_len m1 + 2 + 4, mkresource nm ty cl tt rdlength rdata (KA ip))
    else if ty =? QTYPE_AAAA then
      if MAX_PACKET_LEN <? ps_len s + INET6_ADDRSTRLEN then Rej
      else
        _ <- wr psz (ps_len s) INET6_ADDRSTRLEN ;;
        ip6 <- rdn b (packet_len m1 + 2) 16 ;;
        Ok (alloc s INET6_ADDRSTRLEN, packet_len m1 + 2 + 16, mkresource nm ty cl tt rdlength rdata (KAAAA ip6))
    else if (ty =? QTYPE_NS) || (ty =? QTYPE_CNAME) || (ty =? QTYPE_PTR) then
      '(s, p, target) <- label_parse b psz s (slot + 40) (packet_len m1 + 2) ;;
      Ok (s, p, mkresource nm ty cl tt rdlength rdata (KName target))
    else if ty =? QTYPE_SRV then
      '(priority, p) <- net2short b (packet_len m1 + 2) ;;
      '(weight, p) <- net2short b p ;;
      '(port, p) <- net2short b p ;;
      '(s, p, target) <- label_parse b psz s (slot + 48) p ;;
      Ok (s, p, mkresource nm ty cl tt rdlength rdata (KSrv priority weight port target))
    else
      Ok (s, packet_len m1 + 2 + rdlength, mkresource nm ty cl tt rdlength rdata KNone)) = k) ->
    rr_parse1 b psz s slot (packet_len m) = k).
  { intros rl k Srl Hrl Hb1 Hb2 Hb3 Hk. unfold rr_parse1. rewrite Hp. cbn [bind]. unfold SIZEOF_RESOURCE. rewrite wr_eq by lia. cbn [bind].
    rewrite (net2short_seg b q _ Hb ltac:(lia) ltac:(lia) Sty Hty). cbn [bind].
    rewrite (net2short_seg b (q + 2) _ Hb ltac:(lia) ltac:(lia) Scl Hcl). cbn [bind].
    rewrite (net2long_seg b (q + 2 + 2) _ Hb ltac:(lia) ltac:(lia) Sttl Httl). cbn [bind].
    replace (q + 2 + 2 + 4) with (packet_len m1) by lia.
    rewrite (net2short_seg b (packet_len m1) rl Hb ltac:(lia) ltac:(lia) Srl Hrl). cbn [bind].
    unfold MAX_PACKET_LEN at 1 2.
    replace ((65535 <? rl + (packet_len m1 + 2)) || (65535 <? ps_len s1 + rl)) with false by lia.
    apply Hk; reflexivity. }
  destruct (raw_bytes (data r)) as [l|] eqn:Er.
  - (* addresses and raw data *)
    destruct (raw_call m1 (data r) l (rtype r) Er Hfits Hraw) as (Eo & Hcn & Hlc & Hrsz & Hprd & Hl16 & Hnty & HA & HAA & Hkn).
    fold m2 in Eo. destruct (isname_false _ Hnty) as (Ni1 & Ni2 & Ni3).
    assert (Hpl2 : packet_len m2 = packet_len m1 + 2 + zlen l) by (unfold packet_len; rewrite Eo, !zlen_app, zlen_short; lia).
    assert (S2 : seg (b_at b) (packet_len m1) (short2net (zlen l) ++ l)).
    { unfold packet_len. apply agree_seg with (c := []); [rewrite app_nil_r, <- Eo; exact Hag|fold (packet_len m1); lia]. }
    apply seg_app in S2. destruct S2 as [Srl Sl]. rewrite zlen_short in Sl.
    set (extra := if rtype r =? QTYPE_A then INET_ADDRSTRLEN else if rtype r =? QTYPE_AAAA then INET6_ADDRSTRLEN else 0).
    assert (Hex : 0 <= extra <= 46) by (unfold extra, INET_ADDRSTRLEN, INET6_ADDRSTRLEN; destruct (rtype r =? QTYPE_A); [lia|]; destruct (rtype r =? QTYPE_AAAA); lia).
    set (s2 := if extra =? 0 then alloc s1 (zlen l) else alloc (alloc s1 (zlen l)) extra).
    assert (Hs2 : ps_len s2 = ps_len s1 + zlen l + extra).
    { unfold s2. destruct (Z.eqb_spec extra 0); cbn [alloc ps_len]; lia. }
    exists s2, ents1, lim1. split.
    { apply (Hpre (zlen l)); try assumption; try lia; try (unfold u16; lia).
      intros ty cl tt nm -> -> -> ->. cbv zeta. rewrite Ni1, Ni2, Ni3.
      rewrite wr_eq by lia. cbn [bind]. rewrite rdn_seg by (try assumption; lia). cbn [bind ps_len alloc].
      unfold s2, extra, parsed_rr. rewrite Hkn, Hrsz, Hprd.
      change (rtype r =? 1) with (rtype r =? QTYPE_A). change (rtype r =? 28) with (rtype r =? QTYPE_AAAA).
      unfold MAX_PACKET_LEN, INET_ADDRSTRLEN, INET6_ADDRSTRLEN in *.
      destruct (Z.eqb_spec (rtype r) QTYPE_A) as [EA|NA].
      - specialize (HA EA). destruct (Z.ltb_spec 65535 (ps_len s1 + zlen l + 16)); [lia|]. rewrite wr_eq by lia. cbn [bind].
        replace 4 with (zlen l) at 1 by exact HA. rewrite rdn_seg by (try assumption; lia). cbn [bind].
        change (16 =? 0) with false. cbv iota. do 3 f_equal. lia.
      - destruct (Z.eqb_spec (rtype r) QTYPE_AAAA) as [EB|NB].
        + specialize (HAA EB). destruct (Z.ltb_spec 65535 (ps_len s1 + zlen l + 46)); [lia|]. rewrite wr_eq by lia. cbn [bind].
          replace 16 with (zlen l) at 1 by exact HAA. rewrite rdn_seg by (try assumption; lia). cbn [bind].
          change (46 =? 0) with false. cbv iota. do 3 f_equal. lia.
        + change (0 =? 0) with true. cbv iota. do 3 f_equal. lia. }
    split; [apply sim_plain with (s := s1); try assumption; lia|]. split; [lia|lia].
  - destruct (data r) as [ip|ip|d|n|pr we n] eqn:Ed; cbn [raw_bytes] in Er; try discriminate.
    + (* a name *)
      cbn [data_fits] in Hfits. cbn [data_names] in Hdn. inversion Hdn as [|? ? [Hnn Hne] _]; subst.
      cbn [data_names raw_size map sum fold_right] in *. change (fold_right Z.add 0) with sum in *. unfold name_size in *. change (len (dotted n)) with (zlen (dotted n)) in *.
      pose proof (zlen_nonneg _ (dotted n)).
      destruct (name_step m1 ents1 lim1 s1 (data_call (RName n)) n b psz (slot + 40) Hs1) as (w2 & ents2 & lim2 & Hout2 & Hw2 & Hp2 & Hsim2 & Hlen2);
        try assumption; try reflexivity; fold m2; try assumption; try lia; try (intros; contradiction).
      fold m2 in Hout2, Hsim2. cbn [bytes_before data_call lead trail] in *. rewrite app_nil_r in Hout2.
      assert (Hpl2 : packet_len m2 = packet_len m1 + 2 + zlen w2) by (unfold packet_len; rewrite Hout2, !zlen_app, zlen_short; lia).
      exists (pst_after s1 (dotted n)), ents2, lim2. split; [|split; [apply Hsim2; lia|split; [lia|lia]]].
      apply (Hpre (zlen w2)); try (unfold u16; lia).
      * unfold packet_len. apply agree_seg with (c := w2); [rewrite app_assoc; rewrite <- Hout2; exact Hag|fold (packet_len m1); lia].
      * intros ty cl tt nm -> -> -> ->. cbv zeta.
        assert (Hn3 : (rtype r =? QTYPE_NS) || (rtype r =? QTYPE_CNAME) || (rtype r =? QTYPE_PTR) = true /\ (rtype r =? QTYPE_A) = false /\ (rtype r =? QTYPE_AAAA) = false).
        { cbn [In] in Hfits. unfold QTYPE_NS, QTYPE_CNAME, QTYPE_PTR, QTYPE_A, QTYPE_AAAA. lia. }
        destruct Hn3 as (-> & -> & ->). cbn [orb bind]. rewrite Hp2. cbn [bind]. rewrite <- Hpl2.
        unfold parsed_rr. rewrite Ed. reflexivity.
    + (* SRV *)
      cbn [data_fits] in Hfits. destruct Hfits as (Hty33 & Hpr & Hwe & Hpo). cbn [data_names] in Hdn. inversion Hdn as [|? ? [Hnn Hne] _]; subst.
      rename n into po. match type of Hnn with legal_name ?x => rename x into n end.
      cbn [data_names raw_size map sum fold_right] in *. change (fold_right Z.add 0) with sum in *. unfold name_size in *. change (len (dotted n)) with (zlen (dotted n)) in *.
      pose proof (zlen_nonneg _ (dotted n)).
      destruct (name_step m1 ents1 lim1 s1 (data_call (RSrv pr we po n)) n b psz (slot + 48) Hs1) as (w2 & ents2 & lim2 & Hout2 & Hw2 & Hp2 & Hsim2 & Hlen2);
        try assumption; try reflexivity; fold m2; try assumption; try lia; try (intros; contradiction).
      fold m2 in Hout2, Hsim2. cbn [bytes_before data_call lead trail] in *. rewrite app_nil_r in Hout2.
      assert (Hpl2 : packet_len m2 = packet_len m1 + 8 + zlen w2) by (unfold packet_len; rewrite Hout2, !zlen_app, !zlen_short; lia).
      assert (S2 : seg (b_at b) (packet_len m1) (short2net (zlen w2 + 6) ++ short2net pr ++ short2net we ++ short2net po)).
      { unfold packet_len. apply agree_seg with (c := w2); [rewrite app_assoc, <- Hout2; exact Hag|fold (packet_len m1); lia]. }
      apply seg_app in S2. destruct S2 as [Srl S2]. apply seg_app in S2. destruct S2 as [Spr S2]. apply seg_app in S2. destruct S2 as [Swe Spo]. rewrite !zlen_short in *.
      exists (pst_after s1 (dotted n)), ents2, lim2. split; [|split; [apply Hsim2; lia|split; [lia|lia]]].
      apply (Hpre (zlen w2 + 6)); try (unfold u16; lia); try assumption.
      intros ty cl tt nm -> -> -> ->. cbv zeta. rewrite Hty33. cbn [bind orb Z.eqb Pos.eqb QTYPE_NS QTYPE_CNAME QTYPE_PTR QTYPE_SRV QTYPE_A QTYPE_AAAA].
      rewrite (net2short_seg b (packet_len m1 + 2) pr Hb ltac:(lia) ltac:(lia) Spr Hpr). cbn [bind].
      rewrite (net2short_seg b (packet_len m1 + 2 + 2) we Hb ltac:(lia) ltac:(lia) Swe Hwe). cbn [bind].
      rewrite (net2short_seg b (packet_len m1 + 2 + 2 + 2) po Hb ltac:(lia) ltac:(lia) Spo Hpo). cbn [bind].
      replace (packet_len m1 + 2 + 2 + 2 + 2) with (packet_len m1 + 8) by lia. rewrite Hp2. cbn [bind]. rewrite <- Hpl2.
      unfold parsed_rr. rewrite Ed, Hty33. reflexivity.
Qed.

Lemma sim_grow : forall m ents lim s s', sim m ents lim s -> ps_len s <= ps_len s' -> ps_names s' = ps_names s -> sim m ents lim s'.
Proof.
  intros m ents lim s s' (names & H1 & H2 & H3 & H4) Hl Hn. exists names. repeat (split; [assumption|]).
  destruct H4 as [(E1 & E2 & E3 & E4)|(H4 & H5)]; [left|right].
  - repeat (split; [assumption|]). split; [congruence|exact E4].
  - split; [lia|exact H5].
Qed.

Lemma name_size_nonneg : forall n, 0 <= name_size n.
Proof. intros. unfold name_size. rewrite len_zlen. pose proof (zlen_nonneg _ (dotted n)). lia. Qed.

Lemma sum_nonneg : forall l, Forall (fun x => 0 <= x) l -> 0 <= sum l.
Proof. induction l as [|x l IH]; intros H; cbn [sum fold_right]; [lia|]. change (fold_right Z.add 0) with sum. inversion H as [|? ? Hx Hl]; subst. specialize (IH Hl). cbn beta in Hx. lia. Qed.

Lemma sum_map_nonneg : forall (A : Type) (f : A -> Z) l, (forall x, 0 <= f x) -> 0 <= sum (map f l).
Proof. intros A f l H. apply sum_nonneg. rewrite Forall_forall. intros x Hx. apply in_map_iff in Hx. destruct Hx as (y & <- & _). apply H. Qed.

Lemma sum_app : forall a b, sum (a ++ b) = sum a + sum b.
Proof. induction a as [|x a IH]; intros b; [reflexivity|]. cbn [app sum fold_right]. change (fold_right Z.add 0) with sum. rewrite IH. lia. Qed.

Lemma rr_size_nonneg : forall r, 0 <= rr_size r.
Proof.
  intros r. unfold rr_size. pose proof (sum_map_nonneg _ name_size (rr_names r) name_size_nonneg).
  assert (0 <= raw_size (data r)) by (destruct (data r); cbn [raw_size]; rewrite ?len_zlen; try lia; apply zlen_nonneg). lia.
Qed.

Lemma rrs_round : forall sec rs m ents lim s b psz slot,
  sim m ents lim s -> Forall legal_rr rs -> Forall (fun r => Forall (fun n => legal_name n /\ ends_only_in tld n) (rr_names r)) rs ->
  let m' := fold_left do_call (flat_map (rr_calls sec) rs) m in
  (forall pre d post, flat_map (rr_calls sec) rs = pre ++ CRaw d :: post -> packet_len (fold_left do_call pre m) + len d <= 4096) ->
  packet_len m' <= 16384 -> bytebuf b -> agree b (e_out m') -> packet_len m' <= b_size b -> 65536 <= psz ->
  0 <= slot -> slot + 64 * len rs <= psz -> (rs <> [] -> 16 <= ps_len s) ->
  ps_len s + sum (map rr_size rs) <= 65535 ->
  exists s' ents' lim',
    rr_parse b psz s (length rs) slot (packet_len m) = Ok (s', packet_len m', map parsed_rr rs) /\
    sim m' ents' lim' s' /\ ps_len s <= ps_len s' <= ps_len s + sum (map rr_size rs).
Proof.
  intros sec. induction rs as [|r rs IH]; intros m ents lim s b psz slot Hsim Hleg Hnames m' Hfit Hsz Hb Hag Hbs Hps Hs0 Hs64 Hl0 Hbud.
  - exists s, ents, lim. cbn [map sum fold_right]. split; [reflexivity|]. split; [exact Hsim|]. lia.
  - inversion Hleg as [|? ? Hr Hleg']; subst. inversion Hnames as [|? ? Hn Hnames']; subst.
    set (m1 := fold_left do_call (rr_calls sec r) m) in *.
    assert (Em' : m' = fold_left do_call (flat_map (rr_calls sec) rs) m1) by (unfold m'; cbn [flat_map]; apply fold_left_app).
    clearbody m'. subst m'. set (m' := fold_left do_call (flat_map (rr_calls sec) rs) m1) in *.
    pose proof (fold_call_mono (flat_map (rr_calls sec) rs) m1) as Hm1. fold m' in Hm1.
    destruct (fold_call_app (flat_map (rr_calls sec) rs) m1) as [x Ex]. fold m' in Ex.
    cbn [map sum fold_right] in Hbud. change (fold_right Z.add 0) with sum in Hbud.
    pose proof (sum_map_nonneg _ rr_size rs rr_size_nonneg) as Hsum. pose proof (rr_size_nonneg r) as Hr0.
    specialize (Hl0 ltac:(discriminate)). rewrite len_zlen in *. rewrite zlen_cons in Hs64. pose proof (zlen_nonneg _ rs).
    destruct (rr_step sec m ents lim s r b psz slot) as (s1 & ents1 & lim1 & E1 & Hsim1 & Hlen1 & H12); try assumption; fold m1; try lia.
    { unfold raw_fits. destruct (data r) as [| |d| |] eqn:Ed; try exact I.
      apply (Hfit [CRr sec true (owner r) (rtype r) (rclass r) (rttl r)] d (flat_map (rr_calls sec) rs)).
      cbn [flat_map]. unfold rr_calls at 1. rewrite Ed. reflexivity. }
    { rewrite Ex in Hag. apply agree_prefix in Hag. exact Hag. }
    fold m1 in E1, Hsim1, H12.
    destruct (IH m1 ents1 lim1 s1 b psz (slot + 64)) as (s2 & ents2 & lim2 & E2 & Hsim2 & Hlen2); try assumption; fold m'; rewrite ?len_zlen; try lia; try assumption.
    { intros pre d post E. specialize (Hfit (rr_calls sec r ++ pre) d post). rewrite fold_left_app in Hfit. apply Hfit. cbn [flat_map]. rewrite E. apply app_assoc. }
    exists s2, ents2, lim2. split.
    { cbn [length rr_parse]. rewrite E1. cbn [bind]. unfold SIZEOF_RESOURCE. rewrite E2. reflexivity. }
    split; [exact Hsim2|]. cbn [map sum fold_right]. change (fold_right Z.add 0) with sum. lia.
Qed.
End Round.

(* ------------------------------------------------------------------ *)
(* Header *)

Definition bit (v : Z) : Prop := v = 0 \/ v = 1.
Definition legal_header (h : header) : Prop :=
  bit (h_qr h) /\ 0 <= h_opcode h < 16 /\ bit (h_aa h) /\ bit (h_tc h) /\ bit (h_rd h) /\ bit (h_ra h) /\
  0 <= h_z h < 8 /\ 0 <= h_rcode h < 16.

Definition flag0 (h : header) : Z :=
  Z.lor (Z.lor (Z.lor (Z.lor (flag (h_qr h) 128) (Z.shiftl (h_opcode h) 3 mod 256)) (flag (h_aa h) 4)) (flag (h_tc h) 2)) (flag (h_rd h) 1).
Definition flag1 (h : header) : Z := Z.lor (Z.lor (flag (h_ra h) 128) (Z.shiftl (h_z h) 4 mod 256)) (h_rcode h).

Lemma header_round : forall h, legal_header h -> header_of (flag0 h) (flag1 h) = h /\ is_byte (flag0 h) /\ is_byte (flag1 h).
Proof.
  intros [qr op aa tc rd ra z rc]. unfold legal_header, bit. cbn [h_qr h_opcode h_aa h_tc h_rd h_ra h_z h_rcode].
  intros (Hqr & Hop & Haa & Htc & Hrd & Hra & Hz & Hrc).
  pose (chk0 := forallb (fun qr => forallb (fun op => forallb (fun aa => forallb (fun tc => forallb (fun rd =>
     let f := Z.lor (Z.lor (Z.lor (Z.lor (flag qr 128) (Z.shiftl op 3 mod 256)) (flag aa 4)) (flag tc 2)) (flag rd 1) in
     (Z.eqb (if Z.land f 128 =? 0 then 0 else 1) qr) && (Z.shiftr (Z.land f 120) 3 =? op) && (Z.eqb (if Z.land f 4 =? 0 then 0 else 1) aa)
     && (Z.eqb (if Z.land f 2 =? 0 then 0 else 1) tc) && (Z.eqb (if Z.land f 1 =? 0 then 0 else 1) rd) && (0 <=? f) && (f <? 256))
     (zseq 0 2)) (zseq 0 2)) (zseq 0 2)) (zseq 0 16)) (zseq 0 2)).
  assert (C0 : chk0 = true) by (vm_compute; reflexivity). unfold chk0 in C0.
  pose (chk1 := forallb (fun ra => forallb (fun z => forallb (fun rc =>
     let f := Z.lor (Z.lor (flag ra 128) (Z.shiftl z 4 mod 256)) rc in
     (Z.eqb (if Z.land f 128 =? 0 then 0 else 1) ra) && (Z.shiftr (Z.land f 112) 4 =? z) && (Z.land f 15 =? rc) && (0 <=? f) && (f <? 256))
     (zseq 0 16)) (zseq 0 8)) (zseq 0 2)).
  assert (C1 : chk1 = true) by (vm_compute; reflexivity). unfold chk1 in C1.
  assert (In2 : forall v, v = 0 \/ v = 1 -> In v (zseq 0 2)) by (intros v Hv; apply zseq_in; lia).
  rewrite forallb_forall in C0. specialize (C0 qr (In2 _ Hqr)). rewrite forallb_forall in C0. specialize (C0 op ltac:(apply zseq_in; lia)).
  rewrite forallb_forall in C0. specialize (C0 aa (In2 _ Haa)). rewrite forallb_forall in C0. specialize (C0 tc (In2 _ Htc)).
  rewrite forallb_forall in C0. specialize (C0 rd (In2 _ Hrd)).
  rewrite forallb_forall in C1. specialize (C1 ra (In2 _ Hra)). rewrite forallb_forall in C1. specialize (C1 z ltac:(apply zseq_in; lia)).
  rewrite forallb_forall in C1. specialize (C1 rc ltac:(apply zseq_in; lia)). cbv zeta in C0, C1.
  unfold flag0, flag1, header_of. cbn [h_qr h_opcode h_aa h_tc h_rd h_ra h_z h_rcode].
  repeat (apply andb_prop in C0; destruct C0 as [C0 ?]). repeat (apply andb_prop in C1; destruct C1 as [C1 ?]).
  rewrite ?Z.eqb_eq in *. unfold is_byte. split; [|split; lia]. f_equal; assumption.
Qed.

(* ------------------------------------------------------------------ *)
(* Section counts *)

Lemma do_call_counts : forall m c,
  e_qd (do_call m c) = (match c with CQd _ _ _ _ => (e_qd m + 1) mod 65536 | _ => e_qd m end) /\
  e_an (do_call m c) = (match c with CRr An _ _ _ _ _ => (e_an m + 1) mod 65536 | _ => e_an m end) /\
  e_ns (do_call m c) = (match c with CRr Ns _ _ _ _ _ => (e_ns m + 1) mod 65536 | _ => e_ns m end) /\
  e_ar (do_call m c) = (match c with CRr Ar _ _ _ _ _ => (e_ar m + 1) mod 65536 | _ => e_ar m end).
Proof.
  intros m c. destruct c as [dot n0 ty cl|sec dot n0 ty cl ttl|v|a|a|dot n0|pr we po dot n0|d]; try destruct sec; cbn [do_call];
    unfold message_qd, message_an, message_ns, message_ar, rrappend, rdata_long, rdata_ipv4, rdata_ipv6, rdata_raw, rdata_name, rdata_srv; cbv zeta;
    try match goal with |- context [host ?m0 ?nm] => destruct (host_app m0 nm) as (w & labels & ovf & E); rewrite E end;
    unfold patch2; rewrite ?short2net_val; cbn [fst put e_qd e_an e_ns e_ar]; repeat split; reflexivity.
Qed.

Definition cnt (f : call -> bool) (l : list call) : Z := zlen (filter f l).
Definition is_qd (c : call) : bool := match c with CQd _ _ _ _ => true | _ => false end.
Definition is_rr (s : section) (c : call) : bool :=
  match c, s with CRr An _ _ _ _ _, An => true | CRr Ns _ _ _ _ _, Ns => true | CRr Ar _ _ _ _ _, Ar => true | _, _ => false end.

Lemma fold_counts : forall calls m,
  e_qd (fold_left do_call calls m) mod 65536 = (e_qd m + cnt is_qd calls) mod 65536 /\
  e_an (fold_left do_call calls m) mod 65536 = (e_an m + cnt (is_rr An) calls) mod 65536 /\
  e_ns (fold_left do_call calls m) mod 65536 = (e_ns m + cnt (is_rr Ns) calls) mod 65536 /\
  e_ar (fold_left do_call calls m) mod 65536 = (e_ar m + cnt (is_rr Ar) calls) mod 65536.
Proof.
  induction calls as [|c calls IH]; intros m; cbn [fold_left].
  - unfold cnt. cbn [filter]. rewrite zlen_nil, !Z.add_0_r. auto.
  - destruct (IH (do_call m c)) as (I1 & I2 & I3 & I4). destruct (do_call_counts m c) as (D1 & D2 & D3 & D4).
    rewrite I1, I2, I3, I4, D1, D2, D3, D4. unfold cnt.
    destruct c; try destruct sec; cbn [filter is_qd is_rr]; rewrite ?zlen_cons; rewrite ?Z.add_mod_idemp_l by lia; repeat split; f_equal; lia.
Qed.

Lemma cnt_app : forall f a b, cnt f (a ++ b) = cnt f a + cnt f b.
Proof. intros. unfold cnt. rewrite filter_app, zlen_app. reflexivity. Qed.

Lemma cnt_rr : forall s1 s2 rs, cnt (is_rr s1) (flat_map (rr_calls s2) rs) = if (match s1, s2 with An, An => true | Ns, Ns => true | Ar, Ar => true | _, _ => false end) then zlen rs else 0.
Proof.
  intros s1 s2. induction rs as [|r rs IH]; [destruct s1, s2; reflexivity|]. cbn [flat_map]. rewrite cnt_app, IH.
  unfold rr_calls, cnt. destruct s1, s2; destruct (data r); cbn [filter is_rr data_call]; rewrite ?zlen_cons, ?zlen_nil; lia.
Qed.

Lemma cnt_rr_qd : forall s rs, cnt is_qd (flat_map (rr_calls s) rs) = 0.
Proof.
  intros s. induction rs as [|r rs IH]; [reflexivity|]. cbn [flat_map]. rewrite cnt_app, IH. unfold rr_calls, cnt. destruct (data r); reflexivity.
Qed.

Lemma cnt_qd_qd : forall qs, cnt is_qd (map quest_call qs) = zlen qs.
Proof. induction qs as [|q qs IH]; [reflexivity|]. unfold cnt in *. cbn [map filter quest_call is_qd]. rewrite !zlen_cons, IH. reflexivity. Qed.

Lemma cnt_qd_rr : forall s qs, cnt (is_rr s) (map quest_call qs) = 0.
Proof. intros s. induction qs as [|q qs IH]; [reflexivity|]. unfold cnt in *. cbn [map filter quest_call is_rr]. destruct s; exact IH. Qed.

Lemma message_counts : forall qs an ns ar,
  let m := run (message_calls qs an ns ar) in
  zlen qs < 65536 -> zlen an < 65536 -> zlen ns < 65536 -> zlen ar < 65536 ->
  e_qd m mod 65536 = zlen qs /\ e_an m mod 65536 = zlen an /\ e_ns m mod 65536 = zlen ns /\ e_ar m mod 65536 = zlen ar.
Proof.
  intros qs an ns ar m H1 H2 H3 H4. destruct (fold_counts (message_calls qs an ns ar) enc_empty) as (C1 & C2 & C3 & C4).
  fold (run (message_calls qs an ns ar)) in C1, C2, C3, C4. fold m in C1, C2, C3, C4.
  unfold message_calls in *. rewrite !cnt_app, !cnt_rr_qd, ?cnt_qd_qd in C1. rewrite !cnt_app, !cnt_rr, cnt_qd_rr in C2, C3, C4.
  cbn [enc_empty e_qd e_an e_ns e_ar] in *. pose proof (zlen_nonneg _ qs). pose proof (zlen_nonneg _ an). pose proof (zlen_nonneg _ ns). pose proof (zlen_nonneg _ ar).
  rewrite C1, C2, C3, C4. repeat split; rewrite Z.mod_small; lia.
Qed.

Lemma short2net_mod : forall v, short2net v = short2net (v mod 65536).
Proof. intros. rewrite !short2net_val. f_equal; [lia|]. f_equal. lia. Qed.

(* C02 *)
Lemma message_roundtrip : forall tld qs an ns ar id h b psz,
  let rrs := an ++ ns ++ ar in
  let m := run (message_calls qs an ns ar) in
  Forall legal_quest qs -> Forall legal_rr rrs ->
  (forall n, In n (map qname qs ++ flat_map rr_names rrs) -> legal_name n /\ ends_only_in tld n) ->
  unpacked_size qs rrs <= 65535 ->
  packet_len m <= 16384 -> (forall pre d post, message_calls qs an ns ar = pre ++ CRaw d :: post -> packet_len (run pre) + len d <= 4096) ->
  u16 id -> legal_header h ->
  bytebuf b -> packet_len m <= b_size b -> 65536 <= psz ->
  (forall i, 0 <= i < packet_len m -> b_at b i = zget (message_packet m id h) i) ->
  exists s, message_parse b psz =
    Ok (mkmessage id h (map parsed_quest qs) (map parsed_rr an) (map parsed_rr ns) (map parsed_rr ar), s, packet_len m).
Proof.
  intros tld qs an ns ar id h b psz rrs m Hlq Hlr Hnames Hun Hsz Hraw Hid Hh Hb Hbs Hps Hat.
  unfold unpacked_size in Hun. unfold rrs in Hun. rewrite !map_app, !sum_app in Hun. rewrite !len_zlen in Hun. rewrite !zlen_app in Hun.
  pose proof (zlen_nonneg _ qs). pose proof (zlen_nonneg _ an). pose proof (zlen_nonneg _ ns). pose proof (zlen_nonneg _ ar).
  pose proof (sum_map_nonneg _ rr_size an rr_size_nonneg). pose proof (sum_map_nonneg _ rr_size ns rr_size_nonneg). pose proof (sum_map_nonneg _ rr_size ar rr_size_nonneg).
  pose proof (sum_map_nonneg _ (fun q => name_size (qname q)) qs (fun q => name_size_nonneg (qname q))).
  destruct (message_counts qs an ns ar) as (C1 & C2 & C3 & C4); try lia. fold m in C1, C2, C3, C4.
  assert (H12 : 12 <= packet_len m) by apply run_ge12.
  destruct (header_round h Hh) as (Hhr & Hf0 & Hf1).
  assert (Hhead : seg (b_at b) 0 (short2net id ++ [flag0 h; flag1 h] ++ short2net (zlen qs) ++ short2net (zlen an) ++ short2net (zlen ns) ++ short2net (zlen ar))).
  { intros i Hi. rewrite !zlen_app, !zlen_short, !zlen_cons, zlen_nil in Hi. rewrite Z.add_0_l. rewrite Hat by lia. unfold message_packet. cbv zeta.
    fold (flag0 h). fold (flag1 h). rewrite (short2net_mod (e_qd m)), (short2net_mod (e_an m)), (short2net_mod (e_ns m)), (short2net_mod (e_ar m)).
    rewrite C1, C2, C3, C4.
    replace (short2net id ++ [flag0 h; flag1 h] ++ short2net (zlen qs) ++ short2net (zlen an) ++ short2net (zlen ns) ++ short2net (zlen ar) ++ skipn 12 (e_out m))
      with ((short2net id ++ [flag0 h; flag1 h] ++ short2net (zlen qs) ++ short2net (zlen an) ++ short2net (zlen ns) ++ short2net (zlen ar)) ++ skipn 12 (e_out m)) by (rewrite <- !app_assoc; reflexivity).
    apply zget_app_l. rewrite !zlen_app, !zlen_short, !zlen_cons, zlen_nil. lia. }
  apply seg_app in Hhead. destruct Hhead as [Sid Hhead]. apply seg_app in Hhead. destruct Hhead as [Sfl Hhead].
  apply seg_app in Hhead. destruct Hhead as [Sqd Hhead]. apply seg_app in Hhead. destruct Hhead as [San Hhead]. apply seg_app in Hhead. destruct Hhead as [Sns Sar].
  rewrite !zlen_short in *. change (zlen [flag0 h; flag1 h]) with 2 in *. cbn [Z.add Pos.add Pos.succ] in *.
  apply seg_cons in Sfl. destruct Sfl as [Sf0 Sfl]. apply seg_cons in Sfl. destruct Sfl as [Sf1 _].
  assert (Hag : agree b (e_out m)).
  { intros i Hi. rewrite Hat by (unfold packet_len; lia). apply packet_get. lia. }
  (* the four stages of the encoder *)
  set (m1 := fold_left do_call (map quest_call qs) enc_empty).
  set (m2 := fold_left do_call (flat_map (rr_calls An) an) m1).
  set (m3 := fold_left do_call (flat_map (rr_calls Ns) ns) m2).
  assert (Em : m = fold_left do_call (flat_map (rr_calls Ar) ar) m3).
  { unfold m, run, message_calls. rewrite !fold_left_app. reflexivity. }
  pose proof (fold_call_mono (flat_map (rr_calls An) an) m1) as M12. fold m2 in M12.
  pose proof (fold_call_mono (flat_map (rr_calls Ns) ns) m2) as M23. fold m3 in M23.
  pose proof (fold_call_mono (flat_map (rr_calls Ar) ar) m3) as M34. rewrite <- Em in M34.
  destruct (fold_call_app (flat_map (rr_calls An) an) m1) as [x1 X1]. fold m2 in X1.
  destruct (fold_call_app (flat_map (rr_calls Ns) ns) m2) as [x2 X2]. fold m3 in X2.
  destruct (fold_call_app (flat_map (rr_calls Ar) ar) m3) as [x3 X3]. rewrite <- Em in X3.
  assert (Hag3 : agree b (e_out m3)) by (rewrite X3 in Hag; apply agree_prefix in Hag; exact Hag).
  assert (Hag2 : agree b (e_out m2)) by (rewrite X2 in Hag3; apply agree_prefix in Hag3; exact Hag3).
  assert (Hag1 : agree b (e_out m1)) by (rewrite X1 in Hag2; apply agree_prefix in Hag2; exact Hag2).
  unfold rrs in Hlr. apply Forall_app in Hlr. destruct Hlr as [Hla Hlr]. apply Forall_app in Hlr. destruct Hlr as [Hln Hlar].
  assert (Hnq : Forall (fun q => legal_name (qname q) /\ ends_only_in tld (qname q)) qs).
  { rewrite Forall_forall. intros q Hq. apply Hnames. apply in_or_app. left. apply in_map. exact Hq. }
  assert (Hnr : forall rs, (forall r, In r rs -> In r rrs) -> Forall (fun r => Forall (fun n => legal_name n /\ ends_only_in tld n) (rr_names r)) rs).
  { intros rs Hrs. rewrite Forall_forall. intros r Hr. rewrite Forall_forall. intros n Hn. apply Hnames. apply in_or_app. right.
    apply in_flat_map. exists r. split; [apply Hrs; exact Hr|exact Hn]. }
  assert (Hia : forall r, In r an -> In r rrs) by (intros r Hr; unfold rrs; apply in_or_app; left; exact Hr).
  assert (Hin : forall r, In r ns -> In r rrs) by (intros r Hr; unfold rrs; apply in_or_app; right; apply in_or_app; left; exact Hr).
  assert (Hiar : forall r, In r ar -> In r rrs) by (intros r Hr; unfold rrs; apply in_or_app; right; apply in_or_app; right; exact Hr).
  unfold message_parse, MAX_PACKET_LEN, SIZEOF_QUESTION, SIZEOF_RESOURCE.
  rewrite (net2short_seg b 0 id Hb ltac:(lia) ltac:(lia) Sid Hid). cbn [bind Z.add Pos.add Pos.succ].
  rewrite !rd_eq by lia. cbn [bind]. cbv zeta.
  rewrite (net2short_seg b 4 (zlen qs) Hb ltac:(lia) ltac:(lia) Sqd ltac:(unfold u16; lia)). cbn [bind Z.add Pos.add Pos.succ].
  destruct (Z.ltb_spec (65535 - 8) (16 * zlen qs)); [lia|].
  rewrite (net2short_seg b 6 (zlen an) Hb ltac:(lia) ltac:(lia) San ltac:(unfold u16; lia)). cbn [bind Z.add Pos.add Pos.succ].
  destruct (Z.ltb_spec (65535 - 8) (64 * zlen an)); [lia|].
  rewrite (net2short_seg b 8 (zlen ns) Hb ltac:(lia) ltac:(lia) Sns ltac:(unfold u16; lia)). cbn [bind Z.add Pos.add Pos.succ].
  destruct (Z.ltb_spec (65535 - 8) (64 * zlen ns)); [lia|].
  rewrite (net2short_seg b 10 (zlen ar) Hb ltac:(lia) ltac:(lia) Sar ltac:(unfold u16; lia)). cbn [bind Z.add Pos.add Pos.succ].
  destruct (Z.ltb_spec (65535 - 8) (64 * zlen ar)); [lia|].
  assert (H00 : pst_ok (mkpst 0 [] [])) by (repeat split; cbn; try lia; constructor).
  assert (Hmy : forall s n, ps_names (fst (my s n)) = ps_names s) by reflexivity.
  assert (Hmyl : forall s n, 0 <= ps_len s -> ps_len s <= snd (my s n) <= ps_len s + 7 /\ ps_len (fst (my s n)) = snd (my s n) + n).
  { intros s n Hs. unfold my. cbn [fst snd ps_len]. split; lia. }
  destruct (Hmyl (mkpst 0 [] []) (16 * zlen qs) ltac:(cbn; lia)) as (Q1 & Q2).
  pose proof (Hmy (mkpst 0 [] []) (16 * zlen qs)) as Q3.
  destruct (my (mkpst 0 [] []) (16 * zlen qs)) as [s0 qd_at] eqn:Emy0. cbn [fst snd ps_len ps_names] in Q1, Q2, Q3.
  assert (qd_at = 0) as -> by (unfold my in Emy0; cbn [ps_len] in Emy0; injection Emy0 as _ E; rewrite <- E; reflexivity).
  assert (Hsim0 : sim tld enc_empty [] 0 s0).
  { exists []. split; [|split; [reflexivity|split; [constructor|left; repeat split; exact Q3]]].
    split; [cbn; repeat constructor; lia|]. split; [unfold zlen; cbn; lia|constructor]. }
  destruct (quests_round tld qs enc_empty [] 0 s0 b psz 0 Hsim0 Hlq Hnq) as (s1 & ents1 & lim1 & E1 & Hsim1 & Hlen1 & _ & _); try assumption; fold m1; rewrite ?len_zlen; try lia.
  { intros Hq. destruct qs as [|q0 qs0]; [contradiction|]. rewrite zlen_cons in *. pose proof (zlen_nonneg _ qs0). lia. }
  fold m1 in E1, Hsim1. change (packet_len enc_empty) with 12 in E1.
  replace (Z.to_nat (zlen qs)) with (length qs) by (unfold zlen; lia). rewrite E1. cbn [bind].
  destruct (Hmyl s1 (64 * zlen an) ltac:(lia)) as (A1 & A2). pose proof (Hmy s1 (64 * zlen an)) as A3.
  destruct (my s1 (64 * zlen an)) as [s2 an_at]. cbn [fst snd] in A1, A2, A3.
  destruct (Hmyl s2 (64 * zlen ns) ltac:(lia)) as (N1 & N2). pose proof (Hmy s2 (64 * zlen ns)) as N3.
  destruct (my s2 (64 * zlen ns)) as [s3 ns_at]. cbn [fst snd] in N1, N2, N3.
  destruct (Hmyl s3 (64 * zlen ar) ltac:(lia)) as (R1 & R2). pose proof (Hmy s3 (64 * zlen ar)) as R3.
  destruct (my s3 (64 * zlen ar)) as [s4 ar_at]. cbn [fst snd] in R1, R2, R3.
  assert (Hsim4 : sim tld m1 ents1 lim1 s4) by (apply sim_grow with (s := s1); [exact Hsim1|lia|congruence]).
  assert (Hpos : forall (A : Type) (l : list A), l <> [] -> 1 <= zlen l).
  { intros A [|x l] Hl; [contradiction|]. rewrite zlen_cons. pose proof (zlen_nonneg _ l). lia. }
  destruct (rrs_round tld An an m1 ents1 lim1 s4 b psz an_at Hsim4 Hla (Hnr an Hia)) as (s5 & ents5 & lim5 & E5 & Hsim5 & Hlen5); fold m2; try assumption; rewrite ?len_zlen; try lia.
  { intros pre d post E. specialize (Hraw (map quest_call qs ++ pre) d (post ++ flat_map (rr_calls Ns) ns ++ flat_map (rr_calls Ar) ar)).
    unfold run in Hraw. rewrite fold_left_app in Hraw. apply Hraw. unfold message_calls. rewrite E, <- !app_assoc. reflexivity. }
  { intros Hne. specialize (Hpos _ an Hne). lia. }
  fold m2 in E5, Hsim5. replace (Z.to_nat (zlen an)) with (length an) by (unfold zlen; lia). rewrite E5. cbn [bind].
  destruct (rrs_round tld Ns ns m2 ents5 lim5 s5 b psz ns_at Hsim5 Hln (Hnr ns Hin)) as (s6 & ents6 & lim6 & E6 & Hsim6 & Hlen6); fold m3; try assumption; rewrite ?len_zlen; try lia.
  { intros pre d post E. specialize (Hraw (map quest_call qs ++ flat_map (rr_calls An) an ++ pre) d (post ++ flat_map (rr_calls Ar) ar)).
    unfold run in Hraw. rewrite !fold_left_app in Hraw. apply Hraw. unfold message_calls. rewrite E, <- !app_assoc. reflexivity. }
  { intros Hne. specialize (Hpos _ ns Hne). lia. }
  fold m3 in E6, Hsim6. replace (Z.to_nat (zlen ns)) with (length ns) by (unfold zlen; lia). rewrite E6. cbn [bind].
  destruct (rrs_round tld Ar ar m3 ents6 lim6 s6 b psz ar_at Hsim6 Hlar (Hnr ar Hiar)) as (s7 & ents7 & lim7 & E7 & Hsim7 & Hlen7); rewrite <- ?Em; try assumption; rewrite ?len_zlen; try lia.
  { intros pre d post E. specialize (Hraw (map quest_call qs ++ flat_map (rr_calls An) an ++ flat_map (rr_calls Ns) ns ++ pre) d post).
    unfold run in Hraw. rewrite !fold_left_app in Hraw. apply Hraw. unfold message_calls. rewrite E, <- !app_assoc. reflexivity. }
  { intros Hne. specialize (Hpos _ ar Hne). lia. }
  rewrite <- Em in E7. replace (Z.to_nat (zlen ar)) with (length ar) by (unfold zlen; lia). rewrite E7. cbn [bind].
  exists s7. change (2 + 1) with 3. replace (b_at b 2) with (flag0 h) by (symmetry; exact Sf0). replace (b_at b 3) with (flag1 h) by (symmetry; exact Sf1).
  rewrite Hhr. reflexivity.
Qed.
