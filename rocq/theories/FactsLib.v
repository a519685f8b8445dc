(* Proofs about the small libraries of the application. *)
From Verif Require Import Base Lemmas Lib SpecLib.

Lemma cget_ok : forall l i, 0 <= i < zlen l -> cget l i = Ok (zget l i).
Proof. intros l i H. unfold cget. replace ((0 <=? i) && (i <? zlen l)) with true by lia. reflexivity. Qed.
Lemma cset_ok : forall l i v, 0 <= i < zlen l -> cset l i v = Ok (upd l (Z.to_nat i) v).
Proof. intros l i v H. unfold cset. replace ((0 <=? i) && (i <? zlen l)) with true by lia. reflexivity. Qed.

Lemma zget_mid : forall a b c i, i = zlen a -> zget (a ++ b :: c) i = b.
Proof.
  intros a b c i ->. unfold zget. rewrite zlen_app, zlen_cons. pose proof (zlen_nonneg _ a). pose proof (zlen_nonneg _ c).
  replace ((0 <=? zlen a) && (zlen a <? zlen a + (1 + zlen c))) with true by lia.
  unfold zlen. rewrite Nat2Z.id, app_nth2, Nat.sub_diag by lia. reflexivity.
Qed.
Lemma upd_mid : forall (a : list Z) b c v, upd (a ++ b :: c) (length a) v = a ++ v :: c.
Proof. induction a as [|x a IH]; intros b c v; cbn [app length upd]; [reflexivity|]. rewrite IH. reflexivity. Qed.

Lemma skip_ok : forall s fuel pre rest, ~ In 0 s -> (length s < fuel)%nat ->
  strlcpy_skip fuel (pre ++ s ++ 0 :: rest) (zlen pre) = Ok (zlen pre + zlen s + 1).
Proof.
  induction s as [|x s IH]; intros fuel pre rest N L; destruct fuel as [|fuel]; cbn [length] in L; try lia; cbn [strlcpy_skip app].
  - rewrite cget_ok by (rewrite zlen_app, zlen_cons; pose proof (zlen_nonneg _ pre); pose proof (zlen_nonneg _ rest); lia).
    cbn [bind]. rewrite zget_mid by reflexivity. rewrite Z.eqb_refl, zlen_nil. f_equal. lia.
  - rewrite cget_ok by (rewrite zlen_app, zlen_cons; pose proof (zlen_nonneg _ pre); pose proof (zlen_nonneg _ (s ++ 0 :: rest)); lia).
    cbn [bind]. rewrite zget_mid by reflexivity.
    destruct (Z.eqb_spec x 0) as [->|D]; [exfalso; apply N; left; reflexivity|].
    replace (pre ++ x :: s ++ 0 :: rest) with ((pre ++ [x]) ++ s ++ 0 :: rest) by (rewrite <- app_assoc; reflexivity).
    replace (zlen pre + 1) with (zlen (pre ++ [x])) by (rewrite zlen_app, zlen_cons, zlen_nil; lia).
    rewrite IH; [|intros K; apply N; right; exact K|lia]. f_equal. rewrite zlen_app, !zlen_cons, zlen_nil. lia.
Qed.

Lemma copy_step : forall n dst src i,
  strlcpy_copy (S (S n)) dst src i = (c <- cget src i;; dst <- cset dst i c;; if c =? 0 then Ok (dst, i + 1, false) else strlcpy_copy (S n) dst src (i + 1)).
Proof. reflexivity. Qed.
Lemma copy_ok : forall s n pre d rest, ~ In 0 s -> (n <= length d)%nat -> (0 < n)%nat ->
  strlcpy_copy n (pre ++ d) (pre ++ s ++ 0 :: rest) (zlen pre) =
  if (length s <? n - 1)%nat then Ok (pre ++ s ++ 0 :: skipn (S (length s)) d, zlen pre + zlen s + 1, false)
  else Ok (pre ++ firstn (n - 1) s ++ skipn (n - 1) d, zlen pre + Z.of_nat (n - 1), true).
Proof.
  induction s as [|x s IH]; intros n pre d rest N L P; destruct n as [|[|n]]; try lia; rewrite ?copy_step.
  - cbn. rewrite Z.add_0_r. reflexivity.
  - destruct d as [|y d]; cbn [length] in L; [lia|]. cbn [app].
    rewrite cget_ok by (rewrite zlen_app, zlen_cons; pose proof (zlen_nonneg _ pre); pose proof (zlen_nonneg _ rest); lia).
    cbn [bind]. rewrite zget_mid by reflexivity.
    rewrite cset_ok by (rewrite zlen_app, zlen_cons; pose proof (zlen_nonneg _ pre); pose proof (zlen_nonneg _ d); lia).
    cbn [bind]. replace (Z.to_nat (zlen pre)) with (length pre) by (unfold zlen; lia). rewrite upd_mid, Z.eqb_refl. cbn [length Nat.sub Nat.ltb Nat.leb skipn]. rewrite zlen_nil.
    rewrite Z.add_0_r. reflexivity.
  - cbn. rewrite Z.add_0_r. reflexivity.
  - destruct d as [|y d]; cbn [length] in L; [lia|]. cbn [app].
    rewrite cget_ok by (rewrite zlen_app, zlen_cons; pose proof (zlen_nonneg _ pre); pose proof (zlen_nonneg _ (s ++ 0 :: rest)); lia).
    cbn [bind]. rewrite zget_mid by reflexivity.
    rewrite cset_ok by (rewrite zlen_app, zlen_cons; pose proof (zlen_nonneg _ pre); pose proof (zlen_nonneg _ d); lia).
    cbn [bind]. replace (Z.to_nat (zlen pre)) with (length pre) by (unfold zlen; lia). rewrite upd_mid.
    destruct (Z.eqb_spec x 0) as [->|D]; [exfalso; apply N; left; reflexivity|].
    replace (pre ++ x :: s ++ 0 :: rest) with ((pre ++ [x]) ++ s ++ 0 :: rest) by (rewrite <- app_assoc; reflexivity).
    replace (pre ++ x :: d) with ((pre ++ [x]) ++ d) by (rewrite <- app_assoc; reflexivity).
    replace (zlen pre + 1) with (zlen (pre ++ [x])) by (rewrite zlen_app, zlen_cons, zlen_nil; lia).
    rewrite IH; [|intros K; apply N; right; exact K|lia|lia].
    cbn [length]. replace (S (length s) <? S (S n) - 1)%nat with (length s <? S n - 1)%nat.
    2:{ destruct (Nat.ltb_spec (length s) (S n - 1)), (Nat.ltb_spec (S (length s)) (S (S n) - 1)); try reflexivity; lia. }
    replace (S (S n) - 1)%nat with (S (S n - 1)) by lia. cbn [firstn skipn].
    destruct (length s <? S n - 1)%nat; f_equal; f_equal.
    + rewrite <- app_assoc. cbn [app]. rewrite zlen_app, !zlen_cons, zlen_nil. f_equal; lia.
    + rewrite <- app_assoc. cbn [app]. rewrite zlen_app, !zlen_cons, zlen_nil. f_equal; lia.
Qed.

(* The whole effect of strlcpy *)
Lemma strlcpy_spec : forall dst src s dsize, holds_string src s -> 0 <= dsize <= zlen dst ->
  strlcpy dst src dsize =
  Ok (if dsize =? 0 then dst else let n := Z.to_nat (Z.min (zlen s) (dsize - 1)) in firstn n s ++ 0 :: skipn (S n) dst, zlen s).
Proof.
  intros dst src s dsize (N & rest & ->) B. unfold strlcpy.
  assert (T : forall i, 0 <= i -> i <= zlen s -> strlcpy_skip (S (length (s ++ 0 :: rest))) (s ++ 0 :: rest) i = Ok (zlen s + 1)).
  { intros i I1 I2. pose proof (skip_ok (skipn (Z.to_nat i) s) (S (length (s ++ 0 :: rest))) (firstn (Z.to_nat i) s) rest) as K.
    rewrite app_assoc, firstn_skipn, <- zlen_app, firstn_skipn in K.
    replace (zlen (firstn (Z.to_nat i) s)) with i in K by (unfold zlen in *; rewrite firstn_length; lia).
    apply K.
    - intros J. apply N. rewrite <- (firstn_skipn (Z.to_nat i) s). apply in_or_app. right. exact J.
    - rewrite app_length, skipn_length. lia. }
  pose proof (zlen_nonneg _ s) as Zs.
  destruct (Z.eqb_spec dsize 0) as [->|D].
  - cbn [bind]. rewrite T by lia. cbn [bind]. do 2 f_equal. lia.
  - pose proof (copy_ok s (Z.to_nat dsize) [] dst rest N) as C. cbn [app zlen length] in C. change (zlen []) with 0 in C.
    unfold zlen in B. rewrite C by lia. clear C.
    destruct (Nat.ltb_spec (length s) (Z.to_nat dsize - 1)) as [L|L]; cbn [bind].
    + do 2 f_equal; [|unfold zlen; lia]. replace (Z.to_nat (Z.min (zlen s) (dsize - 1))) with (length s) by (unfold zlen; lia).
      rewrite firstn_all. reflexivity.
    + assert (E : Z.to_nat (Z.min (zlen s) (dsize - 1)) = (Z.to_nat dsize - 1)%nat) by (unfold zlen; lia).
      rewrite E. cbn zeta. set (n := (Z.to_nat dsize - 1)%nat) in *.
      destruct (skipn n dst) as [|y d] eqn:Sk.
      { assert (length (skipn n dst) = 0)%nat by (rewrite Sk; reflexivity). rewrite skipn_length in H. lia. }
      assert (Ln : length (firstn n s) = n) by (rewrite firstn_length; lia).
      rewrite cset_ok.
      2:{ rewrite zlen_app, zlen_cons. unfold zlen. rewrite Ln. lia. }
      cbn [bind]. rewrite T by (unfold zlen; lia). cbn [bind]. do 2 f_equal; [|lia].
      replace (Z.to_nat (0 + Z.of_nat n)) with (length (firstn n s)) by lia. rewrite upd_mid.
      replace (skipn (S n) dst) with d; [reflexivity|].
      clear - Sk. revert dst Sk. induction n as [|n IH]; intros [|z dst] Sk; cbn [skipn] in *; try discriminate; [inversion Sk; reflexivity|]. apply IH. exact Sk.
Qed.

Lemma skipn_zget : forall n l i, Z.of_nat n <= i -> zget (skipn n l) (i - Z.of_nat n) = zget l i.
Proof.
  intros n l i H. unfold zget. replace (zlen (skipn n l)) with (Z.of_nat (length l - n)) by (unfold zlen; rewrite skipn_length; reflexivity).
  unfold zlen. destruct ((0 <=? i) && (i <? Z.of_nat (length l))) eqn:E.
  - replace ((0 <=? i - Z.of_nat n) && (i - Z.of_nat n <? Z.of_nat (length l - n))) with true by lia.
    rewrite <- (firstn_skipn n l) at 2. rewrite app_nth2 by (rewrite firstn_length; lia). f_equal. rewrite firstn_length. lia.
  - replace ((0 <=? i - Z.of_nat n) && (i - Z.of_nat n <? Z.of_nat (length l - n))) with false by lia. reflexivity.
Qed.

(* C62 *)
Lemma strlcpy_copies : forall dst src s size, holds_string src s -> 0 <= size <= zlen dst ->
  exists dst', strlcpy dst src size = Ok (dst', zlen s) /\ zlen dst' = zlen dst /\
  (forall i, size <= i -> zget dst' i = zget dst i) /\
  (0 < size -> exists t, holds_string dst' t /\ t = firstn (Z.to_nat (size - 1)) s /\ (t = s <-> zlen s < size)).
Proof.
  intros dst src s size H B. rewrite (strlcpy_spec dst src s size H B). eexists. split; [reflexivity|].
  pose proof (zlen_nonneg _ s) as Zs. destruct (Z.eqb_spec size 0) as [->|D].
  { split; [reflexivity|]. split; [reflexivity|]. lia. }
  cbn zeta. set (n := Z.to_nat (Z.min (zlen s) (size - 1))).
  assert (Ln : length (firstn n s) = n) by (rewrite firstn_length; unfold zlen in *; lia).
  split; [|split].
  - rewrite zlen_app, zlen_cons. unfold zlen in *. rewrite Ln, skipn_length. lia.
  - intros i Hi. change (firstn n s ++ 0 :: skipn (S n) dst) with (firstn n s ++ [0] ++ skipn (S n) dst). rewrite app_assoc.
    assert (L2 : length (firstn n s ++ [0]) = S n) by (rewrite app_length, Ln; cbn [length]; lia).
    rewrite <- (skipn_zget (S n) (_ ++ _) i) by lia.
    rewrite <- L2 at 1. rewrite skipn_app, skipn_all, Nat.sub_diag. rewrite app_nil_l, skipn_O.
    apply skipn_zget. lia.
  - intros P. exists (firstn n s).
    assert (En : firstn n s = firstn (Z.to_nat (size - 1)) s).
    { unfold n. destruct (Z.min_spec (zlen s) (size - 1)) as [[A ->]|[A ->]]; [|reflexivity].
      rewrite !firstn_all2; [reflexivity|unfold zlen in *; lia|unfold zlen in *; lia]. }
    split; [|split; [exact En|]].
    + split; [|exists (skipn (S n) dst); reflexivity]. intros K. apply (proj1 H). rewrite <- (firstn_skipn n s). apply in_or_app. left. exact K.
    + rewrite En. split; intros Q.
      * assert (length (firstn (Z.to_nat (size - 1)) s) = length s) by (rewrite Q; reflexivity). rewrite firstn_length in H0. unfold zlen in *. lia.
      * apply firstn_all2. unfold zlen in *. lia.
Qed.

(* ------------------------------------------------------------------ *)
(* C63 *)
Lemma zget_upd_same : forall l i v, 0 <= i < zlen l -> zget (upd l (Z.to_nat i) v) i = v.
Proof.
  intros l i v H. unfold zget. rewrite zlen_upd. replace ((0 <=? i) && (i <? zlen l)) with true by lia.
  assert (L : (Z.to_nat i < length l)%nat) by (unfold zlen in H; lia). revert L. clear H. generalize (Z.to_nat i). clear i.
  induction l as [|x l IH]; intros [|n] L; cbn [length upd nth] in *; try lia. apply IH. lia.
Qed.
Lemma zget_upd_other : forall l i n v, i <> Z.of_nat n -> zget (upd l n v) i = zget l i.
Proof.
  intros l i n v H. unfold zget. rewrite zlen_upd. destruct ((0 <=? i) && (i <? zlen l)) eqn:E; [|reflexivity].
  assert (D : Z.to_nat i <> n) by lia. revert D. generalize (Z.to_nat i). clear.
  revert n. induction l as [|x l IH]; intros [|n] m D; cbn [upd nth]; try reflexivity.
  - destruct m; [congruence|reflexivity].
  - destruct m; [reflexivity|]. apply IH. congruence.
Qed.

Lemma put16_other : forall ss v i, i <> 2 -> i <> 3 -> zget (put16 ss 2 v) i = zget ss i.
Proof. intros ss v i A B. unfold put16. rewrite !zget_upd_other by lia. reflexivity. Qed.
Lemma put16_get : forall ss v, zlen ss = 128 -> 0 <= v < 65536 -> get16 (put16 ss 2 v) 2 = v.
Proof.
  intros ss v L V. unfold get16, put16. rewrite (zget_upd_other _ 2) by lia. rewrite zget_upd_same by lia.
  rewrite zget_upd_same by (rewrite zlen_upd; lia). lia.
Qed.
Lemma set_port_put : forall ss v, inet_set_port ss v = put16 ss 2 v.
Proof. intros ss v. unfold inet_set_port, SIN_PORT, SIN6_PORT. destruct (inet_family ss =? FAM_INET6); reflexivity. Qed.
Lemma port_get : forall ss, inet_port ss = get16 ss 2.
Proof. intros ss. unfold inet_port, SIN_PORT, SIN6_PORT. destruct (inet_family ss =? FAM_INET6); reflexivity. Qed.

Lemma port_set : forall ss port, zlen ss = 128 -> 0 <= port < 65536 ->
  inet_port (inet_set_port ss port) = port /\ inet_family (inet_set_port ss port) = inet_family ss /\ inet_len (inet_set_port ss port) = inet_len ss /\
  zlen (inet_set_port ss port) = 128 /\ (forall i, i <> 2 -> i <> 3 -> zget (inet_set_port ss port) i = zget ss i).
Proof.
  intros ss port L P. rewrite set_port_put.
  assert (F : inet_family (put16 ss 2 port) = inet_family ss) by (unfold inet_family; rewrite !put16_other by lia; reflexivity).
  split; [rewrite port_get; apply put16_get; assumption|]. split; [exact F|]. split; [unfold inet_len; rewrite F; reflexivity|].
  split; [unfold put16; rewrite !zlen_upd; exact L|]. apply put16_other.
Qed.

Lemma store_other : forall l ss o i, i < Z.of_nat o -> zget (store ss o l) i = zget ss i.
Proof. induction l as [|x l IH]; intros ss o i H; cbn [store]; [reflexivity|]. rewrite IH by lia. apply zget_upd_other. lia. Qed.
Lemma store_len : forall l ss o, zlen (store ss o l) = zlen ss.
Proof. induction l as [|x l IH]; intros ss o; cbn [store]; [reflexivity|]. rewrite IH. apply zlen_upd. Qed.
Lemma upd_zero : forall l n i, Forall (fun x => x = 0) l -> zget (upd l n 0) i = 0.
Proof.
  intros l n i F. unfold zget. destruct (_ && _); [|reflexivity].
  generalize (Z.to_nat i). clear i. revert n. induction F as [|x l E F IH]; intros n m; cbn [upd].
  - destruct m; reflexivity.
  - destruct n; destruct m; cbn [nth]; try reflexivity; try exact E.
    + revert m. clear - F. induction F as [|y l E F IH]; intros [|m]; cbn [nth]; try reflexivity; [exact E|apply IH].
    + apply IH.
Qed.

Lemma store_zero : forall n ss o i, zget ss i = 0 -> zget (store ss o (repeat 0 n)) i = 0.
Proof.
  induction n as [|n IH]; intros ss o i H; cbn [repeat store]; [exact H|]. apply IH.
  destruct (Z.eq_dec i (Z.of_nat o)) as [->|D]; [|rewrite zget_upd_other by exact D; exact H].
  destruct (Z_lt_dec (Z.of_nat o) (zlen ss)) as [L|L].
  - pose proof (zget_upd_same ss (Z.of_nat o) 0) as K. rewrite Nat2Z.id in K. apply K. lia.
  - unfold zget. rewrite zlen_upd. replace (Z.of_nat o <? zlen ss) with false by lia. rewrite andb_false_r. reflexivity.
Qed.

Lemma zget_zeros : forall n i, zget (repeat 0 n) i = 0.
Proof. intros n i. unfold zget. destruct (_ && _); [|reflexivity]. generalize (Z.to_nat i). clear i. induction n as [|n IH]; intros [|m]; cbn [repeat nth]; try reflexivity. apply IH. Qed.

Lemma anyaddr : forall family port, 0 <= family < 65536 -> 0 <= port < 65536 ->
  let ss := inet_anyaddr family port in
  zlen ss = 128 /\ inet_family ss = family /\ inet_port ss = port /\ (forall i, 4 <= i -> zget ss i = 0).
Proof.
  intros family port F P ss.
  set (b := upd (upd (repeat 0 (Z.to_nat SS_SIZE)) 0 (family mod 256)) 1 (family / 256 mod 256)).
  assert (Lb : zlen b = 128) by (unfold b; rewrite !zlen_upd; reflexivity).
  assert (Zb : forall i, 4 <= i -> zget b i = 0).
  { intros i I. unfold b. rewrite !zget_upd_other by lia. apply zget_zeros. }
  assert (B0 : zget b 0 = family mod 256).
  { unfold b. rewrite zget_upd_other by lia. apply (zget_upd_same (repeat 0 (Z.to_nat SS_SIZE)) 0). change (zlen (repeat 0 (Z.to_nat SS_SIZE))) with 128. lia. }
  assert (B1 : zget b 1 = family / 256 mod 256).
  { unfold b. apply (zget_upd_same (upd (repeat 0 (Z.to_nat SS_SIZE)) 0 (family mod 256)) 1). rewrite zlen_upd. change (zlen (repeat 0 (Z.to_nat SS_SIZE))) with 128. lia. }
  assert (K : exists a, zlen a = 128 /\ zget a 0 = family mod 256 /\ zget a 1 = family / 256 mod 256 /\ (forall i, 4 <= i -> zget a i = 0) /\ ss = put16 a 2 port).
  { unfold ss, inet_anyaddr. fold b. destruct (family =? FAM_INET6).
    - exists (store b (Z.to_nat SIN6_ADDR) (repeat 0 16)). rewrite store_len, !store_other by (unfold SIN6_ADDR; lia).
      split; [exact Lb|]. split; [exact B0|]. split; [exact B1|]. split; [|reflexivity]. intros i I. apply store_zero, Zb, I.
    - exists (store b (Z.to_nat SIN_ADDR) (repeat 0 4)). rewrite store_len, !store_other by (unfold SIN_ADDR; lia).
      split; [exact Lb|]. split; [exact B0|]. split; [exact B1|]. split; [|reflexivity]. intros i I. apply store_zero, Zb, I. }
  destruct K as (a & La & A0 & A1 & Az & ->).
  split; [unfold put16; rewrite !zlen_upd; exact La|].
  split; [unfold inet_family; rewrite !put16_other, A0, A1 by lia; lia|].
  split; [rewrite port_get; apply put16_get; assumption|].
  intros i I. rewrite put16_other by lia. apply Az, I.
Qed.

(* ------------------------------------------------------------------ *)
(* netlink *)
Lemma nl_get_ok : forall buf o n, 0 <= o -> o + n <= NL_BUFSZ -> exists v, nl_get buf NL_BUFSZ o n = Ok v.
Proof. intros buf o n A B. unfold nl_get. replace ((0 <=? o) && (o + n <=? NL_BUFSZ)) with true by lia. eexists. reflexivity. Qed.

Lemma align_spec : forall len l, 16 <= len -> len <= l -> l mod 4 = 0 -> l <= 4096 -> len <= nlmsg_align len <= l /\ nlmsg_align len mod 4 = 0.
Proof. intros len l A B C D. unfold nlmsg_align. rewrite (Z.mod_small (len + 3)) by lia. lia. Qed.

Lemma scan_ok : forall fuel buf nh l c, 0 <= nh -> 0 <= l -> nh + l <= NL_BUFSZ -> l mod 4 = 0 -> l < Z.of_nat fuel ->
  exists v, netlink_scan fuel buf NL_BUFSZ nh l c = Ok v /\ (c = true -> v = true).
Proof.
  induction fuel as [|fuel IH]; intros buf nh l c H0 H1 H2 H3 H4; [lia|]. cbn [netlink_scan]. unfold NLMSG_HDRLEN.
  destruct (Z.ltb_spec l 16) as [A|A]; [exists c; split; [reflexivity|tauto]|].
  destruct (nl_get_ok buf nh 4) as (len & ->); [lia|lia|]. cbn [bind].
  destruct (Z.ltb_spec len 16) as [B|B]; cbn [orb]; [exists c; split; [reflexivity|tauto]|].
  destruct (Z.ltb_spec l len) as [C|C]; [exists c; split; [reflexivity|tauto]|].
  destruct (nl_get_ok buf (nh + 4) 2) as (ty & ->); [lia|lia|]. cbn [bind].
  unfold NL_BUFSZ in *. destruct (align_spec len l) as [P Q]; [lia|lia|lia|lia|].
  rewrite Z.mod_small by lia.
  destruct (IH buf (nh + nlmsg_align len) (l - nlmsg_align len) (c || nl_relevant ty)) as (v & E & M); try lia.
  exists v. split; [exact E|]. intros ->. apply M. reflexivity.
Qed.

Definition nl_fits (r : nl_recv) : Prop := match r with NlData b => zlen b mod 4 = 0 | _ => True end.
Lemma read_ok : forall l c, Forall nl_fits l -> exists v, netlink_read l c = Ok v /\ (v = 0 \/ v = 1 \/ v = -1).
Proof.
  induction l as [|r l IH]; intros c F; cbn [netlink_read].
  { eexists. split; [reflexivity|]. destruct c; auto. }
  inversion F as [|? ? F1 F2]; subst. destruct r as [b| | |].
  - destruct (scan_ok (S (Z.to_nat NL_BUFSZ)) b 0 (Z.min (zlen b) NL_BUFSZ) c) as (v & -> & _).
    + lia.
    + pose proof (zlen_nonneg _ b). unfold NL_BUFSZ. lia.
    + lia.
    + cbn [nl_fits] in F1. unfold NL_BUFSZ. lia.
    + lia.
    + cbn [bind]. apply IH. exact F2.
  - apply IH. exact F2.
  - exists 1. auto.
  - exists (-1). auto.
Qed.

(* A well-formed datagram is read message by message *)
Lemma get_le32 : forall buf a v b o, buf = a ++ le32 v ++ b -> o = zlen a -> o + 4 <= NL_BUFSZ -> 0 <= v < 2 ^ 32 -> nl_get buf NL_BUFSZ o 4 = Ok v.
Proof.
  intros buf a v b o -> -> S V. unfold nl_get. pose proof (zlen_nonneg _ a). replace ((0 <=? zlen a) && (zlen a + 4 <=? NL_BUFSZ)) with true by lia.
  change (zseq 0 (Z.to_nat 4)) with [0; 1; 2; 3]. cbn [fold_right].
  rewrite (zget_app_at a _ 0), (zget_app_at a _ 1), (zget_app_at a _ 2), (zget_app_at a _ 3) by lia.
  cbn [le32 app]. rewrite zget_0, (zget_cons _ _ 1), (zget_cons _ _ 2), (zget_cons _ _ 3) by lia.
  change (1 - 1) with 0. change (2 - 1) with 1. change (3 - 1) with 2. rewrite zget_0, (zget_cons _ _ 1), (zget_cons _ _ 2) by lia.
  change (1 - 1) with 0. change (2 - 1) with 1. rewrite zget_0, (zget_cons _ _ 1) by lia. change (1 - 1) with 0. rewrite zget_0.
  f_equal. lia.
Qed.
Lemma get_le16 : forall buf a v b o, buf = a ++ le16 v ++ b -> o = zlen a -> o + 2 <= NL_BUFSZ -> 0 <= v < 65536 -> nl_get buf NL_BUFSZ o 2 = Ok v.
Proof.
  intros buf a v b o -> -> S V. unfold nl_get. pose proof (zlen_nonneg _ a). replace ((0 <=? zlen a) && (zlen a + 2 <=? NL_BUFSZ)) with true by lia.
  change (zseq 0 (Z.to_nat 2)) with [0; 1]. cbn [fold_right].
  rewrite (zget_app_at a _ 0), (zget_app_at a _ 1) by lia.
  cbn [le16 app]. rewrite zget_0, zget_cons by lia. change (1 - 1) with 0. rewrite zget_0.
  f_equal. lia.
Qed.
Lemma padded_len : forall l, zlen (padded l) = (zlen l + 3) / 4 * 4.
Proof. intros l. unfold padded. rewrite zlen_app. unfold zlen at 2. rewrite repeat_length. lia. Qed.
Lemma nl_bytes_len : forall m, zlen (nl_bytes m) = (16 + zlen (nl_payload m) + 3) / 4 * 4.
Proof. intros m. unfold nl_bytes. rewrite !zlen_app, padded_len. change (zlen (le32 _)) with 4. change (zlen (le16 _)) with 2. lia. Qed.

Definition nl_ok (m : nlmsg) : Prop := 0 <= nl_type m < 65536.
Lemma scan_exact : forall ms fuel pre c, Forall nl_ok ms -> zlen (pre ++ nl_datagram ms) <= NL_BUFSZ -> zlen (nl_datagram ms) < Z.of_nat fuel ->
  netlink_scan fuel (pre ++ nl_datagram ms) NL_BUFSZ (zlen pre) (zlen (nl_datagram ms)) c = Ok (c || existsb (fun m => nl_relevant (nl_type m)) ms).
Proof.
  induction ms as [|m ms IH]; intros fuel pre c F S L.
  - destruct fuel as [|fuel]; [cbn in L; lia|]. cbn. rewrite orb_false_r. reflexivity.
  - inversion F as [|? ? F1 F2]; subst. destruct fuel as [|fuel]; [pose proof (zlen_nonneg _ (nl_datagram (m :: ms))); lia|].
    assert (E : nl_datagram (m :: ms) = nl_bytes m ++ nl_datagram ms) by reflexivity. rewrite E in *. rewrite !zlen_app, nl_bytes_len in S. rewrite zlen_app, nl_bytes_len in L.
    pose proof (zlen_nonneg _ (nl_payload m)) as Zp. pose proof (zlen_nonneg _ pre) as Zq. pose proof (zlen_nonneg _ (nl_datagram ms)) as Zr.
    cbn [netlink_scan]. unfold NLMSG_HDRLEN. rewrite zlen_app, nl_bytes_len.
    set (len := 16 + zlen (nl_payload m)) in *.
    replace ((len + 3) / 4 * 4 + zlen (nl_datagram ms) <? 16) with false by lia.
    unfold NL_BUFSZ in S.
    rewrite (get_le32 _ pre len (le16 (nl_type m) ++ le16 (nl_flags m) ++ le32 (nl_seq m) ++ le32 (nl_pid m) ++ padded (nl_payload m) ++ nl_datagram ms)).
    2:{ unfold nl_bytes. rewrite <- !app_assoc. reflexivity. }
    2:{ reflexivity. }
    2:{ unfold NL_BUFSZ. lia. }
    2:{ lia. }
    cbn [bind]. replace ((len <? 16) || ((len + 3) / 4 * 4 + zlen (nl_datagram ms) <? len)) with false by lia.
    rewrite (get_le16 _ (pre ++ le32 len) (nl_type m) (le16 (nl_flags m) ++ le32 (nl_seq m) ++ le32 (nl_pid m) ++ padded (nl_payload m) ++ nl_datagram ms)).
    2:{ unfold nl_bytes. rewrite <- !app_assoc. reflexivity. }
    2:{ rewrite zlen_app. change (zlen (le32 len)) with 4. lia. }
    2:{ unfold NL_BUFSZ. lia. }
    2:{ exact F1. }
    cbn [bind]. assert (A : nlmsg_align len = zlen (nl_bytes m)).
    { rewrite nl_bytes_len. unfold nlmsg_align. rewrite Z.mod_small by lia. reflexivity. }
    rewrite A, <- zlen_app, app_assoc. rewrite nl_bytes_len. fold len.
    replace (((len + 3) / 4 * 4 + zlen (nl_datagram ms) - (len + 3) / 4 * 4) mod 2 ^ 64) with (zlen (nl_datagram ms)) by (rewrite Z.mod_small; lia).
    rewrite IH.
    + cbn [existsb]. rewrite orb_assoc. reflexivity.
    + exact F2.
    + rewrite !zlen_app, nl_bytes_len. fold len. unfold NL_BUFSZ. lia.
    + lia.
Qed.

Lemma relevant_iff : forall m, nl_relevant (nl_type m) = true <-> tells_change m.
Proof. intros m. unfold nl_relevant, tells_change. cbn [In]. lia. Qed.

Lemma read_exact : forall l, Forall (fun ms => Forall nl_ok ms /\ zlen (nl_datagram ms) <= 4096) l -> forall c,
  netlink_read (map (fun ms => NlData (nl_datagram ms)) l) c = Ok (if c || existsb (existsb (fun m => nl_relevant (nl_type m))) l then 1 else 0).
Proof.
  induction 1 as [|ms l [O Sz] F IH]; intros c; cbn [map netlink_read].
  - cbn [existsb]. rewrite orb_false_r. reflexivity.
  - pose proof (scan_exact ms (S (Z.to_nat NL_BUFSZ)) [] c O) as K. cbn [app] in K. change (zlen []) with 0 in K. rewrite Z.min_l by exact Sz.
    rewrite K; [|exact Sz|unfold NL_BUFSZ; lia]. cbn [bind]. rewrite IH. cbn [existsb]. rewrite orb_assoc. reflexivity.
Qed.

Lemma read_tells : forall l, Forall (fun ms => Forall (fun m => 0 <= nl_type m < 65536) ms /\ zlen (nl_datagram ms) <= 4096) l ->
  exists v, netlink_read (map (fun ms => NlData (nl_datagram ms)) l) false = Ok v /\ (v = 0 \/ v = 1) /\ (v = 1 <-> exists ms m, In ms l /\ In m ms /\ tells_change m).
Proof.
  intros l F. rewrite (read_exact l F). cbn [orb]. eexists. split; [reflexivity|].
  destruct (existsb _ l) eqn:E.
  - split; [auto|]. split; [|reflexivity]. intros _. apply existsb_exists in E as (ms & I & E). apply existsb_exists in E as (m & J & E).
    exists ms, m. split; [exact I|]. split; [exact J|]. apply relevant_iff. exact E.
  - split; [auto|]. split; [discriminate|]. intros (ms & m & I & J & T). exfalso.
    assert (X : existsb (existsb (fun m => nl_relevant (nl_type m))) l = true); [|congruence].
    apply existsb_exists. exists ms. split; [exact I|]. apply existsb_exists. exists m. split; [exact J|]. apply relevant_iff. exact T.
Qed.

(* ------------------------------------------------------------------ *)
(* the log level *)
Lemma nocase_lower : forall c d, nocase c d -> lower c = lower d.
Proof. intros c d [->|[[A ->]|[A ->]]]; unfold lower; [reflexivity| |]; (destruct ((65 <=? _) && (_ <=? 90)) eqn:P; destruct ((65 <=? _) && (_ <=? 90)) eqn:Q in |- *; lia). Qed.
Lemma word_lower : forall w s, same_word w s -> map lower w = map lower s.
Proof. induction 1 as [|c d w s N _ IH]; cbn [map]; [reflexivity|]. rewrite IH, (nocase_lower c d N). reflexivity. Qed.
Lemma level_words : forall w l s old, level_word w l -> same_word w s -> mdnsd_log_level old s = (l, l).
Proof.
  intros w l s old W S. apply word_lower in S. unfold mdnsd_log_level. rewrite <- S. clear S.
  unfold level_word in W. cbn [In] in W.
  repeat match goal with H : _ \/ _ |- _ => destruct H as [H|H] end; try contradiction; inversion W; reflexivity.
Qed.
Lemma digits_value : forall ds v r, Forall (fun c => 48 <= c <= 57) ds -> match r with c :: _ => is_digit c = false | [] => True end ->
  digits (ds ++ r) v = (fold_left (fun v c => v * 10 + (c - 48)) ds v, r).
Proof.
  intros ds v r F R. revert v. induction F as [|c ds C F IH]; intros v; cbn [app fold_left].
  - destruct r as [|c r]; cbn [digits]; [reflexivity|]. rewrite R. reflexivity.
  - cbn [digits]. replace (is_digit c) with true by (unfold is_digit; lia). apply IH.
Qed.
Lemma value_mono : forall ds v, Forall (fun c => 48 <= c <= 57) ds -> 0 <= v -> v <= fold_left (fun v c => v * 10 + (c - 48)) ds v.
Proof. intros ds v F. revert v. induction F as [|c ds C F IH]; intros v V; cbn [fold_left]; [lia|]. specialize (IH (v * 10 + (c - 48))). lia. Qed.
Lemma strtol_dec : forall ds, is_dec ds -> dec_value ds < 2 ^ 63 -> strtol ds = (dec_value ds, []).
Proof.
  intros ds [NE F] V. pose proof (value_mono ds 0 F) as M. destruct ds as [|c ds]; [congruence|]. inversion F as [|? ? C F']; subst.
  unfold strtol. cbn [skip_space]. replace (is_space c) with false by (unfold is_space; lia).
  assert (E : match c :: ds with 45 :: u => (true, u) | 43 :: u => (false, u) | _ => (false, c :: ds) end = (false, c :: ds)).
  { assert (K : forall z, z = c -> 48 <= z <= 57 -> match z :: ds with 45 :: u => (true, u) | 43 :: u => (false, u) | _ => (false, z :: ds) end = (false, z :: ds)).
    { intros z _ B. destruct z as [|p|p]; try reflexivity. do 6 (destruct p as [p|p|]; try reflexivity; try lia). }
    apply (K c eq_refl C). }
  rewrite E. replace (is_digit c) with true by (unfold is_digit; lia).
  pose proof (digits_value (c :: ds) 0 [] F I) as D. rewrite app_nil_r in D. rewrite D. unfold dec_value in *. f_equal. unfold clamp. lia.
Qed.
Lemma lower_digits : forall ds, Forall (fun c => 48 <= c <= 57) ds -> map lower ds = ds.
Proof. induction 1 as [|c ds C _ IH]; cbn [map]; [reflexivity|]. rewrite IH. unfold lower. replace ((65 <=? c) && (c <=? 90)) with false by lia. reflexivity. Qed.
Lemma level_number : forall ds old, is_dec ds -> dec_value ds < 2 ^ 31 -> mdnsd_log_level old ds = (dec_value ds, dec_value ds).
Proof.
  intros ds old D V. pose proof (value_mono ds 0 (proj2 D)) as M. fold (dec_value ds) in M. unfold mdnsd_log_level.
  assert (E : find (fun p => bytes_eqb (map lower (fst p)) (map lower ds)) prioritynames = None).
  { rewrite (lower_digits ds (proj2 D)). destruct D as [NE F]. destruct ds as [|c ds]; [congruence|]. inversion F as [|? ? C F']; subst.
    unfold prioritynames, LOG_NONE. cbn [find fst map].
    assert (N : forall x a, (57 <? x) = true -> bytes_eqb (x :: a) (c :: ds) = false).
    { intros x a X. cbn [bytes_eqb]. replace (x =? c) with false by lia. reflexivity. }
    rewrite !N by reflexivity.
    reflexivity. }
  rewrite E. change (-1 =? -1) with true. cbv iota. unfold atoi. rewrite strtol_dec by (try exact D; lia). cbn [fst].
  unfold as_int. rewrite Z.mod_small by lia. replace (dec_value ds <? 2 ^ 31) with true by lia. replace (0 <=? dec_value ds) with true by lia. reflexivity.
Qed.
