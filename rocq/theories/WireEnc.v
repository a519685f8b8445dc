(* What _host writes: literal labels followed by the root or by a pointer to a
   fully literal earlier occurrence, provided no name clashes with an earlier
   one. *)
From Verif Require Import Base Lemmas SpecDns Wire WireSafe WireNames.

(* Literal wire form of labels, without terminator. *)
Definition wire (n : dname) : list Z := concat (map (fun l => zlen l :: l) n).

Lemma wire_cons : forall l n, wire (l :: n) = (zlen l :: l) ++ wire n.
Proof. reflexivity. Qed.
Lemma wire_app : forall a b, wire (a ++ b) = wire a ++ wire b.
Proof. intros. unfold wire. rewrite map_app, concat_app. reflexivity. Qed.
Lemma zlen_wire_cons : forall l n, zlen (wire (l :: n)) = 1 + zlen l + zlen (wire n).
Proof. intros. rewrite wire_cons, zlen_app, zlen_cons. lia. Qed.
Lemma wire_dotted : forall n, zlen (wire n) = zlen (dotted n).
Proof.
  induction n as [|l n IH]; [reflexivity|]. rewrite zlen_wire_cons, dotted_cons, !zlen_app, zlen_cons, zlen_nil, IH. lia.
Qed.

(* The bytes l lie at offset o. *)
Definition seg (get : Z -> Z) (o : Z) (l : list Z) : Prop := forall i, 0 <= i < zlen l -> get (o + i) = zget l i.

Lemma seg_app : forall get o a b, seg get o (a ++ b) <-> seg get o a /\ seg get (o + zlen a) b.
Proof.
  intros get o a b. pose proof (zlen_nonneg _ a) as Ha. pose proof (zlen_nonneg _ b) as Hb.
  unfold seg. split.
  - intros H. split; intros i Hi.
    + rewrite H by (rewrite zlen_app; lia). apply zget_app_l. lia.
    + replace (o + zlen a + i) with (o + (zlen a + i)) by lia. rewrite H by (rewrite zlen_app; lia).
      apply zget_app_at; lia.
  - intros [H1 H2] i Hi. rewrite zlen_app in Hi. destruct (Z.lt_ge_cases i (zlen a)) as [L|L].
    + rewrite zget_app_l by lia. apply H1. lia.
    + rewrite zget_app_r by lia. rewrite <- H2 by lia. f_equal. lia.
Qed.

Lemma seg_cons : forall get o x l, seg get o (x :: l) <-> get o = x /\ seg get (o + 1) l.
Proof.
  intros. change (x :: l) with ([x] ++ l). rewrite seg_app. unfold seg at 1. change (zlen [x]) with 1. split.
  - intros [H1 H2]. split; [|exact H2]. specialize (H1 0 ltac:(lia)). rewrite Z.add_0_r in H1. exact H1.
  - intros [H1 H2]. split; [|exact H2]. intros i Hi. replace i with 0 by lia. rewrite Z.add_0_r. exact H1.
Qed.

Lemma seg_nil : forall get o, seg get o [].
Proof. unfold seg. intros. rewrite zlen_nil in *. lia. Qed.

Lemma seg_self : forall a l b, seg (zget (a ++ l ++ b)) (zlen a) l.
Proof.
  intros a l b i Hi. rewrite zget_app_at with (i := i) by lia. apply zget_app_l. lia.
Qed.

Lemma seg_ext : forall g g' o l, (forall i, o <= i < o + zlen l -> g i = g' i) -> seg g o l -> seg g' o l.
Proof. intros g g' o l H S i Hi. rewrite <- H by lia. apply S. lia. Qed.

Lemma seg_region : forall l get o, seg get o l -> region get o (length l) = l.
Proof.
  induction l as [|x l IH]; intros get o H; [reflexivity|]. apply seg_cons in H. destruct H as [H1 H2].
  cbn [length region]. rewrite H1, IH by exact H2. reflexivity.
Qed.

Lemma zget_ext : forall a b, zlen a = zlen b -> (forall i, 0 <= i < zlen a -> zget a i = zget b i) -> a = b.
Proof.
  induction a as [|x a IH]; intros [|y b] Hl H; try reflexivity; rewrite ?zlen_nil, ?zlen_cons in Hl.
  - pose proof (zlen_nonneg _ b). lia.
  - pose proof (zlen_nonneg _ a). lia.
  - pose proof (zlen_nonneg _ a). rewrite zlen_cons in H. f_equal.
    + specialize (H 0 ltac:(lia)). rewrite !zget_0 in H. exact H.
    + apply IH; [lia|]. intros i Hi. specialize (H (i + 1) ltac:(lia)). rewrite !zget_cons in H by lia.
      replace (i + 1 - 1) with i in H by lia. exact H.
Qed.

(* ------------------------------------------------------------------ *)
(* The label array *)

Definition plain (l : label) : Prop := Forall (fun c => c <> 46) l.

Lemma mk_chars : forall l pre cur rest, plain l -> zlen pre + 1 + zlen cur + zlen l <= 255 ->
  mklabel (l ++ rest) (pre ++ 0 :: cur) (zlen pre) = mklabel rest (pre ++ 0 :: cur ++ l) (zlen pre).
Proof.
  induction l as [|c l IH]; intros pre cur rest Hp Hl.
  - rewrite app_nil_r. reflexivity.
  - inversion Hp; subst. cbn [app mklabel]. rewrite zlen_cons in Hl. pose proof (zlen_nonneg _ l).
    destruct (Z.eqb_spec c 46); [contradiction|]. cbn [andb].
    rewrite zlen_app, zlen_cons. destruct (Z.eqb_spec (zlen pre + (1 + zlen cur)) 255); [lia|].
    rewrite <- app_assoc. cbn [app]. rewrite IH; [|assumption|rewrite zlen_app, zlen_cons, zlen_nil; lia].
    rewrite <- app_assoc. reflexivity.
Qed.

Lemma upd_at : forall (A : Type) (a : list A) x b i v, i = zlen a -> upd (a ++ x :: b) (Z.to_nat i) v = a ++ v :: b.
Proof.
  intros A a x b i v ->. replace (Z.to_nat (zlen a)) with (length a + 0)%nat by (unfold zlen; lia).
  rewrite upd_app_r. reflexivity.
Qed.

Lemma mk_dot : forall pre cur rest, rest <> [] -> zlen pre + 1 + zlen cur <= 254 ->
  mklabel (46 :: rest) (pre ++ 0 :: cur) (zlen pre) = mklabel rest ((pre ++ zlen cur :: cur) ++ [0]) (zlen (pre ++ zlen cur :: cur)).
Proof.
  intros pre cur rest Hr Hl. cbn [mklabel]. destruct rest as [|r rest]; [contradiction|]. cbn [andb Z.eqb].
  change (46 =? 46) with true. cbn [andb]. rewrite !zlen_app, !zlen_cons. pose proof (zlen_nonneg _ pre). pose proof (zlen_nonneg _ cur).
  rewrite upd_at by lia. destruct (Z.eqb_spec (zlen pre + (1 + zlen cur)) 255); [lia|].
  replace ((zlen pre + (1 + zlen cur) - (zlen pre + 1)) mod 256) with (zlen cur) by lia. reflexivity.
Qed.

Lemma fin_last : forall pre cur, cur <> [] -> zlen cur < 256 ->
  finlabel (pre ++ 0 :: cur) (zlen pre) = pre ++ (zlen cur :: cur) ++ [0].
Proof.
  intros pre cur Hc Hl. unfold finlabel. rewrite zlen_app, zlen_cons. pose proof (zlen_nonneg _ pre).
  assert (zlen cur <> 0) by (destruct cur; [contradiction|rewrite zlen_cons; pose proof (zlen_nonneg _ cur); lia]).
  pose proof (zlen_nonneg _ cur).
  destruct (Z.eqb_spec (zlen pre + (1 + zlen cur)) 1); [lia|]. rewrite upd_at by reflexivity.
  replace ((zlen pre + (1 + zlen cur) - (zlen pre + 1)) mod 256) with (zlen cur) by lia.
  rewrite <- app_assoc. reflexivity.
Qed.

Lemma legal_plain : forall l, legal_label l -> plain l /\ l <> [] /\ 1 <= zlen l <= 63 /\ Forall (fun c => c <> 0) l /\ bytes l.
Proof.
  intros l [H1 H2]. rewrite len_zlen in H1. split; [|split; [|split; [exact H1|split]]].
  - eapply Forall_impl; [|exact H2]. cbv beta. tauto.
  - intros ->. rewrite zlen_nil in H1. lia.
  - eapply Forall_impl; [|exact H2]. cbv beta. lia.
  - eapply Forall_impl; [|exact H2]. cbv beta. unfold is_byte. lia.
Qed.

Lemma mklabel_spec : forall n pre s, n <> [] -> Forall legal_label n -> denotes s n -> zlen pre + zlen (dotted n) <= 255 ->
  exists lab last, mklabel s (pre ++ [0]) (zlen pre) = Some (lab, last) /\ finlabel lab last = pre ++ wire n ++ [0].
Proof.
  induction n as [|l n IH]; intros pre s Hne Hleg Hden Hlen; [contradiction|].
  inversion Hleg as [|? ? Hl Hn]; subst. destruct (legal_plain _ Hl) as (Hpl & Hlne & Hll & _ & _).
  rewrite dotted_cons, !zlen_app, zlen_cons, zlen_nil in Hlen. pose proof (zlen_nonneg _ (dotted n)). pose proof (zlen_nonneg _ pre).
  assert (Hs : exists s', s = l ++ s' /\ ((n = [] /\ (s' = [] \/ s' = [46])) \/ (n <> [] /\ exists s'', s' = 46 :: s'' /\ denotes s'' n))).
  { unfold denotes in Hden. rewrite dotted_cons in Hden. destruct n as [|l2 n].
    - rewrite dotted_nil in Hden. cbn [app] in Hden. destruct Hden as [->|Hd].
      + exists [46]. split; [reflexivity|]. left. auto.
      + apply app_inj_tail in Hd. destruct Hd as [-> _]. exists []. rewrite app_nil_r. split; [reflexivity|]. left; auto.
    - destruct Hden as [->|Hd].
      + exists (46 :: dotted (l2 :: n)). split; [reflexivity|]. right. split; [discriminate|]. exists (dotted (l2 :: n)). split; [reflexivity|]. left; reflexivity.
      + assert (Hlast : exists s2, dotted (l2 :: n) = s2 ++ [46]).
        { clear. revert l2. induction n as [|l3 n IH]; intros l2.
          - exists l2. rewrite dotted_cons. reflexivity.
          - destruct (IH l3) as [s2 E]. exists (l2 ++ [46] ++ s2). rewrite dotted_cons, E, <- !app_assoc. reflexivity. }
        destruct Hlast as [s2 E]. rewrite E in Hd. replace (l ++ [46] ++ s2 ++ [46]) with ((l ++ [46] ++ s2) ++ [46]) in Hd by (rewrite <- !app_assoc; reflexivity).
        apply app_inj_tail in Hd. destruct Hd as [-> _]. exists (46 :: s2). split; [reflexivity|]. right. split; [discriminate|].
        exists s2. split; [reflexivity|]. right. symmetry. exact E. }
  destruct Hs as (s' & -> & Hs').
  change (pre ++ [0]) with (pre ++ 0 :: []). rewrite mk_chars by (try assumption; rewrite zlen_nil; lia). cbn [app].
  destruct Hs' as [[-> Hs']|[Hn0 (s'' & -> & Hd)]].
  - exists (pre ++ 0 :: l), (zlen pre). split.
    + destruct Hs' as [->| ->]; reflexivity.
    + rewrite fin_last by (try assumption; lia). unfold wire. cbn [map concat]. rewrite app_nil_r. reflexivity.
  - assert (Hs0 : s'' <> []).
    { destruct n as [|l2 n]; [contradiction|]. inversion Hn as [|? ? Hl2 ?]; subst. destruct (legal_plain _ Hl2) as (_ & Hl2n & _).
      intros ->. destruct Hd as [Hd|Hd]; rewrite dotted_cons in Hd; destruct l2 as [|x [|y l2]]; try contradiction; try discriminate. }
    assert (0 < zlen (dotted n)).
    { destruct n as [|l2 n]; [contradiction|]. rewrite dotted_cons, !zlen_app, zlen_cons, zlen_nil.
      pose proof (zlen_nonneg _ l2). pose proof (zlen_nonneg _ (dotted n)). lia. }
    rewrite mk_dot by (try assumption; lia).
    destruct (IH (pre ++ zlen l :: l) s'' Hn0 Hn Hd) as (lab & last & E1 & E2).
    { rewrite zlen_app, zlen_cons. lia. }
    exists lab, last. split; [exact E1|]. rewrite E2, wire_cons, <- !app_assoc. reflexivity.
Qed.

(* ------------------------------------------------------------------ *)
(* Label comparison *)

Definition lab63 (l : label) : Prop := 1 <= zlen l <= 63.

Lemma lcmp_spec : forall n lab out l1 l2 k,
  lcmp lab out l1 l2 k n = true <-> (forall i, 0 <= i < Z.of_nat n -> lget lab out l1 (k + i) = lget lab out l2 (k + i)).
Proof.
  induction n as [|n IH]; intros lab out l1 l2 k; cbn [lcmp].
  - split; [intros _ i Hi; lia|reflexivity].
  - rewrite andb_true_iff, Z.eqb_eq, IH. split.
    + intros [H1 H2] i Hi. destruct (Z.eq_dec i 0) as [->|Hi0]; [rewrite Z.add_0_r; exact H1|].
      replace (k + i) with (k + 1 + (i - 1)) by lia. apply H2. lia.
    + intros H. split.
      * rewrite <- (Z.add_0_r k). apply H. lia.
      * intros i Hi. replace (k + 1 + i) with (k + (1 + i)) by lia. apply H. lia.
Qed.

(* Terminator of a run of literal labels in the packet. *)
Definition term_at (out : list Z) (k : Z) : Prop := zget out k = 0 \/ (192 <= zget out k).

Lemma land_192_lit : forall l, lab63 l -> (Z.land (zlen l) 192 =? 0) = true.
Proof. intros l H. unfold lab63 in H. rewrite land_192 by (unfold is_byte; lia). apply Z.ltb_lt. lia. Qed.

Lemma lmatch_S : forall f lab out cur l1 l2, lmatch (S f) lab out cur l1 l2 =
  let c1 := lget lab out l1 0 in
  let c2 := lget lab out l2 0 in
  if negb (Z.land c1 192 =? 0) then lmatch f lab out cur (Pkt (cur + ldecomp_val c1 (lget lab out l1 1))) l2
  else if negb (Z.land c2 192 =? 0) then lmatch f lab out cur l1 (Pkt (cur + ldecomp_val c2 (lget lab out l2 1)))
  else if loc_eqb l1 l2 then true
  else if negb (c1 =? c2) then false
  else if c1 =? 0 then true
  else if negb (lcmp lab out l1 l2 1 (Z.to_nat c1)) then false
  else
    let l1 := lmove l1 (c1 + 1) in
    let l2 := lmove l2 (c2 + 1) in
    if (lget lab out l1 0 =? 0) && (lget lab out l2 0 =? 0) then true
    else lmatch f lab out cur l1 l2.
Proof. reflexivity. Qed.

Lemma lmatch_spec : forall p T fuel lab out cur x o,
  bytes out -> zlen out <= cur -> Forall lab63 T -> Forall lab63 p -> Z.of_nat (length p) + 2 <= Z.of_nat fuel ->
  seg (zget lab) x (wire T ++ [0]) -> seg (zget out) o (wire p) -> term_at out (o + zlen (wire p)) ->
  (lmatch fuel lab out cur (Lab x) (Pkt o) = true <-> T = p).
Proof.
  induction p as [|m p IH]; intros T fuel lab out cur x o Hb Hcur HS Hp Hf Hlab Hout Hterm.
  - change (wire []) with (@nil Z) in *. rewrite zlen_nil, Z.add_0_r in Hterm. cbn [length] in Hf.
    destruct fuel as [|f]; [lia|]. destruct f as [|f]; [lia|].
    assert (Hc1 : exists c1, lget lab out (Lab x) 0 = c1 /\ (Z.land c1 192 =? 0) = true /\ (c1 = 0 <-> T = [])).
    { destruct T as [|l T].
      - change (wire []) with (@nil Z) in Hlab. cbn [app] in Hlab. apply seg_cons in Hlab. destruct Hlab as [E _]. exists 0. cbn [lget]. rewrite Z.add_0_r.
        split; [exact E|]. split; [reflexivity|tauto].
      - rewrite wire_cons in Hlab. cbn [app] in Hlab. apply seg_cons in Hlab. destruct Hlab as [E _]. exists (zlen l). cbn [lget]. rewrite Z.add_0_r.
        inversion HS as [|? ? H63 ?]; subst. split; [exact E|]. split; [apply land_192_lit; exact H63|]. unfold lab63 in H63. split; [lia|discriminate]. }
    destruct Hc1 as (c1 & E1 & E2 & E3).
    rewrite lmatch_S.
    cbv zeta. rewrite E1, E2. cbn [negb]. replace (lget lab out (Pkt o) 0) with (zget out o) by (cbn [lget]; rewrite Z.add_0_r; reflexivity).
    destruct Hterm as [Hz|Hptr].
    + rewrite Hz. change (Z.land 0 192 =? 0) with true. cbn [negb loc_eqb].
      destruct (Z.eqb_spec c1 0) as [->|N0]; cbn [negb].
      * change (0 =? 0) with true. split; [intros _; apply E3; reflexivity|reflexivity].
      * split; [discriminate|intros H; apply E3 in H; contradiction].
    + rewrite (land_192 (zget out o)) by (apply zget_byte; exact Hb). destruct (Z.ltb_spec (zget out o) 64); [lia|]. cbn [negb].
      set (off := ldecomp_val (zget out o) (lget lab out (Pkt o) 1)).
      assert (Hoff : 0 <= off) by (apply ldecomp_range; cbn [lget]; apply zget_byte; exact Hb).
      cbn [lmatch]. rewrite E1, E2. cbn [negb].
      replace (lget lab out (Pkt (cur + off)) 0) with 0 by (cbn [lget]; symmetry; apply zget_out; lia).
      change (Z.land 0 192 =? 0) with true. cbn [negb loc_eqb].
      destruct (Z.eqb_spec c1 0) as [->|N0]; cbn [negb].
      * change (0 =? 0) with true. split; [intros _; apply E3; reflexivity|reflexivity].
      * split; [discriminate|intros H0; apply E3 in H0; contradiction].
  - inversion Hp as [|? ? Hm Hp']; subst. rewrite wire_cons in Hout. cbn [app] in Hout. apply seg_cons in Hout. destruct Hout as [Eo Hout].
    apply seg_app in Hout. destruct Hout as [Hom Hop]. rewrite zlen_wire_cons in Hterm. cbn [length] in Hf.
    destruct fuel as [|f]; [lia|]. cbn [lmatch].
    replace (lget lab out (Pkt o) 0) with (zlen m) by (cbn [lget]; rewrite Z.add_0_r; symmetry; exact Eo).
    destruct T as [|l T].
    + change (wire []) with (@nil Z) in Hlab. cbn [app] in Hlab. apply seg_cons in Hlab. destruct Hlab as [E _].
      replace (lget lab out (Lab x) 0) with 0 by (cbn [lget]; rewrite Z.add_0_r; symmetry; exact E).
      change (Z.land 0 192 =? 0) with true. rewrite (land_192_lit m Hm). cbn [negb loc_eqb]. unfold lab63 in Hm.
      destruct (Z.eqb_spec 0 (zlen m)); [lia|]. cbn [negb]. split; [discriminate|discriminate].
    + inversion HS as [|? ? Hl HS']; subst. rewrite wire_cons in Hlab. cbn [app] in Hlab. apply seg_cons in Hlab. destruct Hlab as [E Hlab].
      rewrite <- app_assoc in Hlab. apply seg_app in Hlab. destruct Hlab as [Hll Hls].
      replace (lget lab out (Lab x) 0) with (zlen l) by (cbn [lget]; rewrite Z.add_0_r; symmetry; exact E).
      rewrite (land_192_lit m Hm), (land_192_lit l Hl). cbn [negb loc_eqb].
      destruct (Z.eqb_spec (zlen l) (zlen m)) as [El|Nl]; cbn [negb].
      2:{ split; [discriminate|]. intros H. inversion H; subst. contradiction. }
      destruct (Z.eqb_spec (zlen l) 0); [unfold lab63 in Hl; lia|].
      destruct (lcmp lab out (Lab x) (Pkt o) 1 (Z.to_nat (zlen l))) eqn:Ec; cbn [negb].
      * rewrite lcmp_spec in Ec.
        assert (l = m) as ->.
        { apply zget_ext; [exact El|]. intros i Hi. rewrite <- Hll, <- Hom by lia.
          specialize (Ec i ltac:(lia)). cbn [lget] in Ec. replace (x + 1 + i) with (x + (1 + i)) by lia.
          replace (o + 1 + i) with (o + (1 + i)) by lia. exact Ec. }
        cbn [lmove].
        replace (x + (zlen m + 1)) with (x + 1 + zlen m) by lia. replace (o + (zlen m + 1)) with (o + 1 + zlen m) by lia.
        assert (Hrec : (lmatch f lab out cur (Lab (x + 1 + zlen m)) (Pkt (o + 1 + zlen m)) = true <-> T = p)).
        { apply IH; try assumption; try lia. replace (o + 1 + zlen m + zlen (wire p)) with (o + (1 + zlen m + zlen (wire p))) by lia. exact Hterm. }
        destruct ((lget lab out (Lab (x + 1 + zlen m)) 0 =? 0) && (lget lab out (Pkt (o + 1 + zlen m)) 0 =? 0)) eqn:E0.
        -- split; [intros _|reflexivity]. apply andb_prop in E0. destruct E0 as [Ea Eb]. apply Z.eqb_eq in Ea, Eb.
           cbn [lget] in Ea, Eb. rewrite Z.add_0_r in Ea, Eb. f_equal.
           destruct T as [|l2 T].
           ++ destruct p as [|m2 p]; [reflexivity|]. rewrite wire_cons in Hop. cbn [app] in Hop. apply seg_cons in Hop. destruct Hop as [Eq _].
              inversion Hp' as [|? ? Hm2 ?]; subst. unfold lab63 in Hm2. lia.
           ++ rewrite wire_cons in Hls. cbn [app] in Hls. apply seg_cons in Hls. destruct Hls as [Eq _].
              inversion HS' as [|? ? Hl2 ?]; subst. unfold lab63 in Hl2. lia.
        -- rewrite Hrec. split; [intros ->; reflexivity|intros H; inversion H; reflexivity].
      * split; [discriminate|]. intros H. inversion H; subst. exfalso.
        assert (lcmp lab out (Lab x) (Pkt o) 1 (Z.to_nat (zlen m)) = true); [|congruence].
        apply lcmp_spec. intros i Hi. cbn [lget]. replace (x + (1 + i)) with (x + 1 + i) by lia. replace (o + (1 + i)) with (o + 1 + i) by lia.
        rewrite Hll, Hom by lia. reflexivity.
Qed.
