(* The parser of Wire.v terminates, stays inside its block, and reads at most
   a bounded distance past the packet; objects it hands out are disjoint. *)
From Verif Require Import Base Lemmas Wire.

(* The contents of a buffer are bytes. *)
Definition bytebuf (b : buffer) : Prop := forall o, is_byte (b_at b o).

Lemma rd_safe : forall b o, bytebuf b -> 0 <= o < b_size b -> safe (fun c => c = b_at b o /\ is_byte c) (rd b o).
Proof.
  intros b o Hb Ho. unfold rd.
  replace ((0 <=? o) && (o <? b_size b)) with true by lia. simpl. split; [reflexivity|apply Hb].
Qed.

Lemma rd_ok : forall b o c, rd b o = Ok c -> 0 <= o < b_size b /\ c = b_at b o.
Proof.
  intros b o c H. unfold rd in H. destruct ((0 <=? o) && (o <? b_size b)) eqn:E; [|discriminate].
  injection H as <-. split; [lia|reflexivity].
Qed.

Lemma rdn_safe : forall b o n, bytebuf b -> (0 < n -> 0 <= o /\ o + n <= b_size b) ->
  safe (fun l => zlen l = Z.max 0 n /\ bytes l) (rdn b o n).
Proof.
  intros b o n Hb H. unfold rdn. destruct (Z.leb_spec n 0) as [L|L].
  - simpl. rewrite zlen_nil. split; [lia|constructor].
  - specialize (H L). replace ((0 <=? o) && (o + n <=? b_size b)) with true by lia. simpl.
    rewrite zlen_map, zlen_zseq. split; [lia|]. unfold bytes. rewrite Forall_forall. intros x Hx.
    apply in_map_iff in Hx. destruct Hx as (y & <- & _). apply Hb.
Qed.

Lemma wr_safe : forall psz o n, (0 < n -> 0 <= o /\ o + n <= psz) -> safe (fun _ => True) (wr psz o n).
Proof.
  intros psz o n H. unfold wr. destruct (Z.leb_spec n 0) as [L|L]; [exact I|].
  specialize (H L). replace ((0 <=? o) && (o + n <=? psz)) with true by lia. exact I.
Qed.

Lemma net2short_val : forall h l, is_byte h -> is_byte l -> Z.lor (Z.shiftl h 8 mod 65536) l = h * 256 + l.
Proof.
  intros h l Hh Hl. unfold is_byte in *. rewrite Z.shiftl_mul_pow2 by lia.
  rewrite Z.mod_small by lia. apply (lor_disjoint_add h l 8); lia.
Qed.

Lemma net2short_safe : forall b p, bytebuf b -> 0 <= p -> p + 2 <= b_size b ->
  safe (fun r => snd r = p + 2 /\ 0 <= fst r < 65536 /\ fst r = b_at b p * 256 + b_at b (p + 1)) (net2short b p).
Proof.
  intros b p Hb H0 H1. unfold net2short.
  eapply safe_bind; [apply rd_safe; [exact Hb|lia]|]. intros h _ [-> Hh]. cbv beta.
  eapply safe_bind; [apply rd_safe; [exact Hb|lia]|]. intros l _ [-> Hl]. cbn [safe fst snd].
  rewrite net2short_val by assumption. unfold is_byte in *. lia.
Qed.

Lemma net2long_val : forall a b c d, is_byte a -> is_byte b -> is_byte c -> is_byte d ->
  Z.lor (Z.shiftl (Z.lor (Z.shiftl (Z.lor (Z.shiftl a 8) b) 8) c) 8) d = ((a * 256 + b) * 256 + c) * 256 + d.
Proof. intros. rewrite !lor_shiftl_8 by assumption. reflexivity. Qed.

Lemma net2long_safe : forall b p, bytebuf b -> 0 <= p -> p + 4 <= b_size b ->
  safe (fun r => snd r = p + 4 /\ 0 <= fst r < 2 ^ 32 /\
        fst r = ((b_at b p * 256 + b_at b (p + 1)) * 256 + b_at b (p + 2)) * 256 + b_at b (p + 3)) (net2long b p).
Proof.
  intros b p Hb H0 H1. unfold net2long.
  do 4 (eapply safe_bind; [apply rd_safe; [exact Hb|lia]|]; intros ? _ [-> ?]; cbv beta).
  cbn [safe fst snd]. rewrite net2long_val by assumption. unfold is_byte in *. lia.
Qed.

Lemma ldecomp_range : forall c0 c1, is_byte c1 -> 0 <= ldecomp_val c0 c1 <= 4095.
Proof.
  intros c0 c1 H. unfold ldecomp_val. cbv zeta.
  set (i := Z.shiftl (Z.lxor 192 (schar c0) mod 65536) 8 mod 65536).
  assert (Hi : 0 <= i) by (subst i; apply Z.mod_pos_bound; lia).
  assert (0 <= Z.lor i c1) by (apply Z.lor_nonneg; unfold is_byte in H; lia).
  destruct (Z.leb_spec 4096 (Z.lor i c1)); lia.
Qed.

Lemma ldecomp_safe : forall b p, bytebuf b -> 0 <= p -> p + 2 <= b_size b ->
  safe (fun o => 0 <= o <= 4095 /\ o = ldecomp_val (b_at b p) (b_at b (p + 1))) (ldecomp b p).
Proof.
  intros b p Hb H0 H1. unfold ldecomp.
  eapply safe_bind; [apply rd_safe; [exact Hb|lia]|]. intros c0 _ [-> Hh]. cbv beta.
  eapply safe_bind; [apply rd_safe; [exact Hb|lia]|]. intros c1 _ [-> Hl]. cbn [safe].
  split; [apply ldecomp_range; assumption|reflexivity].
Qed.

Lemma skip_ptrs_safe : forall fuel b len label prev,
  bytebuf b -> 4097 <= b_size b -> 0 <= label -> label + 2 <= b_size b ->
  -1 <= prev <= 4095 -> 4096 - prev <= Z.of_nat fuel ->
  safe (fun l => (l = label \/ (64 <= b_at b label /\ 0 <= l <= 4095)) /\ 0 <= b_at b l < 64) (skip_ptrs fuel b len label prev).
Proof.
  induction fuel as [|f IH]; intros b len label prev Hb Hsz Hl Hl2 Hp Hf.
  - exfalso. lia.
  - simpl skip_ptrs.
    eapply safe_bind; [apply rd_safe; [exact Hb|lia]|]. intros c _ [-> Hc]. cbv beta.
    rewrite land_192 by exact Hc. destruct (Z.ltb_spec (b_at b label) 64) as [L|L].
    + cbn [safe]. unfold is_byte in Hc. split; [left; reflexivity|lia].
    + eapply safe_bind; [apply ldecomp_safe; [exact Hb|lia|lia]|]. intros off _ [Ho _]. cbv beta.
      destruct ((off <=? prev) || (len <? off)) eqn:E; [exact I|].
      eapply safe_bind; [apply rd_safe; [exact Hb|lia]|]. intros c' _ [-> Hc']. cbv beta.
      destruct (Z.eqb_spec (b_at b off) 0) as [Z0|Z0].
      * cbn [safe]. rewrite Z0. split; [right; lia|lia].
      * eapply safe_weaken; [apply IH; try assumption; try lia|].
        intros l [[->|[H1 H2]] H3]; split; try lia; right; lia.
Qed.

Lemma PTR_FUEL_S : exists f, PTR_FUEL = S f.
Proof. exists (Z.to_nat 4099). unfold PTR_FUEL. rewrite <- Z2Nat.inj_succ by lia. reflexivity. Qed.

Lemma skip_ptrs_lit : forall b len label prev c, rd b label = Ok c -> Z.land c 192 = 0 ->
  skip_ptrs PTR_FUEL b len label prev = Ok label.
Proof.
  intros b len label prev c H E. destruct PTR_FUEL_S as [f ->]. cbn [skip_ptrs]. rewrite H. cbn [bind].
  rewrite E. reflexivity.
Qed.

Lemma label_copy_safe : forall fuel b psz len label acc,
  bytebuf b -> 65537 <= b_size b -> 65536 <= psz -> 0 <= len -> 0 <= label -> label + 2 <= b_size b ->
  zlen acc <= 256 -> 257 - zlen acc <= Z.of_nat fuel -> len + zlen acc <= 65535 ->
  safe (fun name => zlen acc <= zlen name <= 256 /\ len + zlen name <= 65535) (label_copy fuel b psz len label acc).
Proof.
  induction fuel as [|f IH]; intros b psz len label acc Hb Hsz Hps Hlen Hl Hl2 Hacc Hf Hfit.
  - exfalso. lia.
  - cbn [label_copy]. pose proof (zlen_nonneg _ acc) as Hacc0.
    eapply safe_bind; [apply rd_safe; [exact Hb|lia]|]. intros c _ [-> Hc]. cbv beta.
    destruct (Z.eqb_spec (b_at b label) 0) as [Z0|Z0].
    { cbn [safe]. lia. }
    eapply safe_bind.
    { apply skip_ptrs_safe; try assumption; try lia. unfold PTR_FUEL. lia. }
    intros l' _ [Hl' Hn]. cbv beta.
    eapply safe_bind; [apply rd_safe; [exact Hb|lia]|]. intros n _ [-> _]. cbv beta.
    unfold MAX_PACKET_LEN. set (n := b_at b l') in *.
    destruct ((255 <? zlen acc + n) || (65535 <=? len + (zlen acc + n)) || (65535 <? l' + 1 + n)) eqn:E; [exact I|].
    eapply safe_bind; [apply rdn_safe; [exact Hb|lia]|]. intros data _ [Hd _]. cbv beta.
    eapply safe_bind; [apply wr_safe; lia|]. intros _ _ _. cbv beta.
    assert (Hz : zlen (acc ++ data ++ [46]) = zlen acc + n + 1).
    { rewrite !zlen_app, zlen_cons, zlen_nil, Hd. lia. }
    eapply safe_weaken; [apply IH; try assumption; try lia|].
    intros name Hname. cbv beta in Hname. lia.
Qed.

Lemma label_adv_ok : forall fuel b psz len label acc name,
  bytebuf b -> label_copy fuel b psz len label acc = Ok name ->
  exists e, label_adv fuel b label = Ok e /\ label <= e <= Z.max (label + 1) 65536.
Proof.
  induction fuel as [|f IH]; intros b psz len label acc name Hb H; [discriminate|].
  cbn [label_copy] in H. cbn [label_adv].
  apply bind_ok in H. destruct H as (c & Hc & H). rewrite Hc. cbn [bind].
  destruct (rd_ok _ _ _ Hc) as [Hr ->].
  destruct (Z.eqb_spec (b_at b label) 0) as [Z0|Z0].
  { exists label. split; [reflexivity|lia]. }
  pose proof (Hb label) as Hbl.
  destruct (Z.eqb_spec (Z.land (b_at b label) 192) 0) as [L|L]; cbn [negb].
  2:{ exists (label + 1). split; [reflexivity|lia]. }
  rewrite (skip_ptrs_lit _ _ _ _ _ Hc L) in H. cbn [bind] in H. rewrite Hc in H. cbn [bind] in H.
  unfold MAX_PACKET_LEN in H.
  destruct ((255 <? zlen acc + b_at b label) || (65535 <=? len + (zlen acc + b_at b label)) || (65535 <? label + 1 + b_at b label)) eqn:E; [discriminate|].
  apply bind_ok in H. destruct H as (data & _ & H).
  apply bind_ok in H. destruct H as (u & _ & H).
  apply IH in H; [|exact Hb]. destruct H as (e & He & Hle).
  exists e. split; [exact He|]. unfold is_byte in Hbl. lia.
Qed.

(* Two regions of the block do not overlap. *)
Definition disjoint (x y : Z * Z) : Prop :=
  fst x + snd x <= fst y \/ fst y + snd y <= fst x.

(* What is known about a parser state between calls. *)
Definition pst_ok (s : pst) : Prop :=
  0 <= ps_len s /\
  Forall (fun x => 0 <= fst x /\ 0 <= snd x /\ fst x + snd x <= ps_len s) (ps_log s) /\
  ForallOrdPairs disjoint (ps_log s) /\
  Forall (fun n => zlen n <= 256) (ps_names s).

Lemma log_push : forall (len n : Z) log,
  0 <= len -> 0 <= n ->
  Forall (fun x => 0 <= fst x /\ 0 <= snd x /\ fst x + snd x <= len) log ->
  ForallOrdPairs disjoint log ->
  Forall (fun x => 0 <= fst x /\ 0 <= snd x /\ fst x + snd x <= len + n) ((len, n) :: log) /\
  ForallOrdPairs disjoint ((len, n) :: log).
Proof.
  intros len n log Hl Hn HF HP. split.
  - constructor; [cbn; lia|]. eapply Forall_impl; [|exact HF]. cbv beta. intros a Ha. lia.
  - constructor; [|exact HP]. eapply Forall_impl; [|exact HF]. cbv beta. intros a Ha. right. cbn. lia.
Qed.

Lemma cstr_len : forall l, zlen (cstr l) <= zlen l.
Proof.
  induction l as [|x l IH]; [reflexivity|]. cbn [cstr]. destruct (x =? 0); rewrite ?zlen_cons; [|lia].
  rewrite zlen_nil. pose proof (zlen_nonneg _ l). lia.
Qed.

Lemma label_parse_safe : forall b psz s slot p,
  bytebuf b -> 65537 <= b_size b -> 65536 <= psz -> pst_ok s -> 0 <= slot -> slot + 8 <= ps_len s ->
  0 <= p -> p + 2 <= b_size b ->
  safe (fun r => let '(s', p', name) := r in
          pst_ok s' /\ ps_len s <= ps_len s' <= Z.max (ps_len s) 65536 /\ ps_len s < 65535 /\ p < p' <= Z.max p 65535 + 2 /\ zlen name <= 256)
       (label_parse b psz s slot p).
Proof.
  intros b psz s slot p Hb Hsz Hps (Hlen & HF & HP & HN) Hs0 Hslot Hp Hp2. unfold label_parse, MAX_PACKET_LEN, MAX_NUM_LABELS.
  destruct (Z.leb_spec 65535 (ps_len s)) as [L|L]; [exact I|].
  eapply safe_bind; [apply wr_safe; lia|]. intros _ _ _. cbv beta.
  eapply safe_bind.
  { apply label_copy_safe with (len := ps_len s) (acc := []); try assumption; rewrite ?zlen_nil; try lia.
    unfold LABEL_FUEL. lia. }
  intros name Hcopy [Hn1 Hn2]. cbv beta.
  destruct (label_adv_ok _ _ _ _ _ _ _ Hb Hcopy) as (e & He & Hle). rewrite He. cbn [bind].
  rewrite zlen_nil in Hn1.
  eapply safe_bind; [apply wr_safe; lia|]. intros _ _ _. cbv beta zeta.
  pose proof (cstr_len name) as Hcs.
  destruct (existsb (bytes_eqb (cstr name)) (ps_names s)).
  - cbn [safe]. split; [unfold pst_ok; auto|]. lia.
  - cbn [safe ps_len]. split; [|lia].
    replace (ps_len s + zlen name + 1) with (ps_len s + (zlen name + 1)) by lia.
    destruct (log_push (ps_len s) (zlen name + 1) (ps_log s)) as [H1 H2]; try assumption; try lia.
    unfold pst_ok; cbn [ps_len ps_names ps_log].
    split; [lia|]. split; [exact H1|]. split; [exact H2|].
    destruct (zlen (ps_names s) <? 512); [|exact HN].
    apply Forall_app. split; [exact HN|]. constructor; [lia|constructor].
Qed.

Lemma alloc_ok : forall s n, pst_ok s -> 0 <= n -> pst_ok (alloc s n).
Proof.
  intros s n (Hlen & HF & HP & HN) Hn.
  destruct (log_push (ps_len s) n (ps_log s)) as [H1 H2]; try assumption.
  unfold pst_ok, alloc; cbn [ps_len ps_names ps_log]. repeat split; try assumption. lia.
Qed.

Definition rr_names_ok (r : resource) : Prop :=
  zlen (rr_name r) <= 256 /\
  match rr_known r with
  | KName n => zlen n <= 256
  | KSrv _ _ _ n => zlen n <= 256
  | _ => True
  end.

Ltac shorts Hb :=
  eapply safe_bind; [apply net2short_safe; [exact Hb|lia|lia]|]; let v := fresh "v" in let p := fresh "p" in
  intros [v p] _; cbn [fst snd]; intros (-> & ? & _).

Lemma rr_parse1_safe : forall b psz s slot p,
  bytebuf b -> 65551 <= b_size b -> 65536 <= psz -> pst_ok s -> 0 <= slot -> slot + 64 <= ps_len s ->
  0 <= p -> Z.max p 65535 + 12 <= b_size b ->
  safe (fun r => let '(s', p', rr) := r in
          pst_ok s' /\ ps_len s <= ps_len s' <= 65536 /\ ps_len s < 65535 /\ p < p' <= 65551 /\ rr_names_ok rr)
       (rr_parse1 b psz s slot p).
Proof.
  intros b psz s slot p Hb Hsz Hps Hok Hs0 Hslot Hp Hp2. unfold rr_parse1, MAX_PACKET_LEN, SIZEOF_RESOURCE, INET_ADDRSTRLEN, INET6_ADDRSTRLEN.
  eapply safe_bind; [apply label_parse_safe; try assumption; lia|].
  intros [[s1 p1] name] _ (Hok1 & Hlen1 & Hlt & Hp1 & Hname). cbv beta iota.
  eapply safe_bind; [apply wr_safe; lia|]. intros _ _ _. cbv beta.
  shorts Hb. rename v into type. shorts Hb. rename v into class.
  eapply safe_bind; [apply net2long_safe; [exact Hb|lia|lia]|]. intros [ttl p0] _. cbn [fst snd]. intros (-> & Httl & _).
  shorts Hb. rename v into rdlength.
  destruct ((65535 <? rdlength + (p1 + 2 + 2 + 4 + 2)) || (65535 <? ps_len s1 + rdlength)) eqn:E; [exact I|].
  set (isname := (type =? QTYPE_NS) || (type =? QTYPE_CNAME) || (type =? QTYPE_PTR) || (type =? QTYPE_SRV)).
  set (p2 := p1 + 2 + 2 + 4 + 2) in *.
  eapply safe_bind with (P := fun r => let '(s2, rl, rdata) := r in
     pst_ok s2 /\ ps_len s1 <= ps_len s2 <= 65536 /\ (isname = false -> ps_len s2 <= 65535) /\ 0 <= rl <= rdlength).
  { destruct isname.
    - cbn [safe]. repeat split; try apply Hok1; try lia.
    - eapply safe_bind; [apply wr_safe; lia|]. intros _ _ _. cbv beta.
      eapply safe_bind; [apply rdn_safe; [exact Hb|lia]|]. intros data _ _. cbn [safe].
      split; [apply alloc_ok; [assumption|lia]|]. unfold alloc; cbn [ps_len]. lia. }
  intros [[s2 rl] rdata] _ (Hok2 & Hlen2 & Hnn & Hrl). cbv beta iota.
  destruct (type =? QTYPE_A).
  { destruct (Z.ltb_spec 65535 (ps_len s2 + 16)); [exact I|].
    eapply safe_bind; [apply wr_safe; destruct Hok2; lia|]. intros _ _ _. cbv beta.
    eapply safe_bind; [apply rdn_safe; [exact Hb|lia]|]. intros data _ _. cbn [safe].
    split; [apply alloc_ok; [assumption|lia]|]. unfold alloc, rr_names_ok; cbn [ps_len rr_name rr_known]. repeat split; try lia. }
  destruct (type =? QTYPE_AAAA).
  { destruct (Z.ltb_spec 65535 (ps_len s2 + 46)); [exact I|].
    eapply safe_bind; [apply wr_safe; destruct Hok2; lia|]. intros _ _ _. cbv beta.
    eapply safe_bind; [apply rdn_safe; [exact Hb|lia]|]. intros data _ _. cbn [safe].
    split; [apply alloc_ok; [assumption|lia]|]. unfold alloc, rr_names_ok; cbn [ps_len rr_name rr_known]. repeat split; try lia. }
  destruct ((type =? QTYPE_NS) || (type =? QTYPE_CNAME) || (type =? QTYPE_PTR)).
  { eapply safe_bind; [apply label_parse_safe; try assumption; lia|].
    intros [[s3 p3] target] _ (Hok3 & Hlen3 & Hlt3 & Hp3 & Ht). cbn [safe].
    split; [exact Hok3|]. unfold rr_names_ok; cbn [rr_name rr_known]. repeat split; lia. }
  destruct (type =? QTYPE_SRV).
  { do 3 shorts Hb.
    eapply safe_bind; [apply label_parse_safe; try assumption; lia|].
    intros [[s3 p3] target] _ (Hok3 & Hlen3 & Hlt3 & Hp3 & Ht). cbn [safe].
    split; [exact Hok3|]. unfold rr_names_ok; cbn [rr_name rr_known]. repeat split; lia. }
  cbn [safe]. split; [exact Hok2|]. unfold rr_names_ok; cbn [rr_name rr_known]. repeat split; lia.
Qed.

Lemma rr_parse_safe : forall count b psz s slot p,
  bytebuf b -> 65563 <= b_size b -> 65536 <= psz -> pst_ok s -> 0 <= slot -> slot + 64 * Z.of_nat count <= ps_len s ->
  0 <= p -> Z.max p 65535 + 12 <= b_size b ->
  safe (fun r => let '(s', p', rrs) := r in
          pst_ok s' /\ ps_len s <= ps_len s' /\ (count <> O -> ps_len s' <= 65536) /\ (count = O -> s' = s) /\ 0 <= p' <= Z.max p 65551 /\
          Forall rr_names_ok rrs /\ length rrs = count)
       (rr_parse b psz s count slot p).
Proof.
  induction count as [|n IH]; intros b psz s slot p Hb Hsz Hps Hok Hs0 Hslot Hp Hp2.
  - cbn [rr_parse safe]. repeat split; try apply Hok; try lia; try constructor. 
  - cbn [rr_parse].
    eapply safe_bind; [apply rr_parse1_safe; try assumption; lia|].
    intros [[s1 p1] r] _ (Hok1 & Hlen1 & Hlt & Hp1 & Hr). cbv beta iota.
    eapply safe_bind; [apply IH; try assumption; unfold SIZEOF_RESOURCE; lia|].
    intros [[s2 p2] rs] _ (Hok2 & Hlen2 & Hnz & Hz & Hp3 & Hrs & Hc). cbn [safe].
    split; [exact Hok2|]. split; [lia|]. split.
    { intros _. destruct n as [|n']; [rewrite Hz by reflexivity; lia|apply Hnz; discriminate]. }
    split; [discriminate|]. split; [lia|]. split; [constructor; assumption|]. cbn [length]. lia.
Qed.

Lemma qd_parse_safe : forall count b psz s slot p,
  bytebuf b -> 65537 <= b_size b -> 65536 <= psz -> pst_ok s -> 0 <= slot -> slot + 16 * Z.of_nat count <= ps_len s ->
  0 <= p -> Z.max p 65535 + 6 * Z.of_nat count <= b_size b ->
  safe (fun r => let '(s', p', qs) := r in
          pst_ok s' /\ ps_len s <= ps_len s' /\ (count <> O -> ps_len s' <= 65536) /\ (count = O -> s' = s) /\
          p <= p' <= Z.max p 65535 + 6 * Z.of_nat count /\
          Forall (fun q => zlen (q_name q) <= 256) qs /\ length qs = count)
       (qd_parse b psz s count slot p).
Proof.
  induction count as [|n IH]; intros b psz s slot p Hb Hsz Hps Hok Hs0 Hslot Hp Hp2.
  - cbn [qd_parse safe]. repeat split; try apply Hok; try lia; try constructor. 
  - cbn [qd_parse]. unfold SIZEOF_QUESTION.
    eapply safe_bind; [apply label_parse_safe; try assumption; lia|].
    intros [[s1 p1] name] _ (Hok1 & Hlen1 & Hlt & Hp1 & Hr). cbv beta iota.
    eapply safe_bind; [apply wr_safe; lia|]. intros _ _ _. cbv beta.
    shorts Hb. shorts Hb.
    eapply safe_bind; [apply IH; try assumption; lia|].
    intros [[s2 p2] rs] _ (Hok2 & Hlen2 & Hnz & Hz & Hp3 & Hrs & Hc). cbn [safe].
    split; [exact Hok2|]. split; [lia|]. split.
    { intros _. destruct n as [|n']; [rewrite Hz by reflexivity; lia|apply Hnz; discriminate]. }
    split; [discriminate|]. split; [lia|]. split; [constructor; assumption|]. cbn [length]. lia.
Qed.

Lemma my_ok : forall s n, pst_ok s -> 0 <= n -> 
  pst_ok (fst (my s n)) /\ ps_len s <= snd (my s n) <= ps_len s + 7 /\ ps_len (fst (my s n)) = snd (my s n) + n /\ snd (my s n) mod 8 = 0.
Proof.
  intros s n (Hlen & HF & HP & HN) Hn. unfold my; cbn [fst snd ps_len].
  set (l := (ps_len s + 7) / 8 * 8).
  assert (Hl : ps_len s <= l <= ps_len s + 7) by (subst l; lia).
  assert (Hm : l mod 8 = 0) by (subst l; apply Z.mod_mul; lia).
  split; [|split; [exact Hl|split; [reflexivity|exact Hm]]].
  assert (HF' : Forall (fun x => 0 <= fst x /\ 0 <= snd x /\ fst x + snd x <= l) (ps_log s)).
  { eapply Forall_impl; [|exact HF]. cbv beta. lia. }
  destruct (log_push l n (ps_log s)) as [H1 H2]; try assumption; try lia.
  unfold pst_ok; cbn [ps_len ps_names ps_log]. split; [lia|].
  destruct (Z.eqb_spec n 0) as [->|N0].
  - rewrite Z.add_0_r. auto.
  - auto.
Qed.

(* The largest offset the parser can read, plus one. *)
Definition READ_BOUND : Z := 65535 + 6 * 4095 + 12.

Lemma message_parse_safe : forall b psz,
  bytebuf b -> READ_BOUND <= b_size b -> 65536 <= psz ->
  safe (fun r => let '(m, s, p) := r in
          pst_ok s /\ ps_len s <= 65536 /\ 0 <= p <= READ_BOUND /\
          Forall (fun q => zlen (q_name q) <= 256) (m_qd m) /\
          Forall rr_names_ok (m_an m) /\ Forall rr_names_ok (m_ns m) /\ Forall rr_names_ok (m_ar m))
       (message_parse b psz).
Proof.
  intros b psz Hb Hsz Hps. unfold message_parse, READ_BOUND, MAX_PACKET_LEN, SIZEOF_QUESTION in *.
  shorts Hb.
  eapply safe_bind; [apply rd_safe; [exact Hb|lia]|]. intros c0 _ _. cbv beta.
  eapply safe_bind; [apply rd_safe; [exact Hb|lia]|]. intros c1 _ _. cbv beta zeta.
  shorts Hb. destruct (Z.ltb_spec (65535 - 8) (16 * v0)); [exact I|].
  shorts Hb. destruct (Z.ltb_spec (65535 - 8) (SIZEOF_RESOURCE * v1)); [exact I|].
  shorts Hb. destruct (Z.ltb_spec (65535 - 8) (SIZEOF_RESOURCE * v2)); [exact I|].
  shorts Hb. destruct (Z.ltb_spec (65535 - 8) (SIZEOF_RESOURCE * v3)); [exact I|].
  unfold SIZEOF_RESOURCE in *.
  assert (H00 : pst_ok (mkpst 0 [] [])).
  { repeat split; cbn; try lia; constructor. }
  destruct (my_ok _ (16 * v0) H00 ltac:(lia)) as (Hok0 & Hr0 & Hl0 & _).
  destruct (my (mkpst 0 [] []) (16 * v0)) as [s0 qd_at]. cbn [fst snd ps_len] in *.
  eapply safe_bind; [apply qd_parse_safe; try assumption; lia|].
  intros [[s1 p1] qd] _ (Hok1 & Hlen1 & Hnz1 & Hz1 & Hp1 & Hqs & Hc1).
  destruct (my_ok s1 (64 * v1) Hok1 ltac:(lia)) as (Hok2 & Hr2 & Hl2 & Ha2).
  destruct (my s1 (64 * v1)) as [s2 an_at]. cbn [fst snd] in *.
  destruct (my_ok s2 (64 * v2) Hok2 ltac:(lia)) as (Hok3 & Hr3 & Hl3 & Ha3).
  destruct (my s2 (64 * v2)) as [s3 ns_at]. cbn [fst snd] in *.
  destruct (my_ok s3 (64 * v3) Hok3 ltac:(lia)) as (Hok4 & Hr4 & Hl4 & Ha4).
  destruct (my s3 (64 * v3)) as [s4 ar_at]. cbn [fst snd] in *.
  assert (P0 : 0 <= ps_len s1) by apply Hok1.
  eapply safe_bind; [apply rr_parse_safe; try assumption; lia|].
  intros [[s5 p5] an] _ (Hok5 & Hlen5 & Hnz5 & Hz5 & Hp5 & Hrs5 & Hc5). cbv beta iota.
  eapply safe_bind; [apply rr_parse_safe; try assumption; lia|].
  intros [[s6 p6] ns] _ (Hok6 & Hlen6 & Hnz6 & Hz6 & Hp6 & Hrs6 & Hc6). cbv beta iota.
  eapply safe_bind; [apply rr_parse_safe; try assumption; lia|].
  intros [[s7 p7] ar] _ (Hok7 & Hlen7 & Hnz7 & Hz7 & Hp7 & Hrs7 & Hc7). cbn [safe m_qd m_an m_ns m_ar].
  split; [exact Hok7|]. split.
  { destruct (Z.to_nat v3) eqn:E3; [|apply Hnz7; discriminate]. rewrite Hz7 by reflexivity.
    destruct (Z.to_nat v2) eqn:E2; [|apply Hnz6; discriminate]. rewrite Hz6 by reflexivity.
    destruct (Z.to_nat v1) eqn:E1; [|apply Hnz5; discriminate]. rewrite Hz5 by reflexivity.
    assert (v1 = 0 /\ v2 = 0 /\ v3 = 0) as (-> & -> & ->) by lia.
    assert (ps_len s1 <= 65536).
    { destruct (Z.to_nat v0) eqn:E0; [|apply Hnz1; discriminate]. rewrite Hz1 by reflexivity. lia. }
    lia. }
  repeat split; try assumption; lia.
Qed.
