(* General facts about the vocabulary of Base.v. *)
From Verif Require Import Base.

Ltac Zify.zify_post_hook ::= Z.div_mod_to_equations.

(* A computation that neither runs into undefined behaviour nor hangs, and
   whose result, if any, satisfies P. *)
Definition safe {A : Type} (P : A -> Prop) (r : res A) : Prop :=
  match r with
  | Ok a => P a
  | Rej => True
  | UB _ => False
  | Hang => False
  end.

Lemma safe_bind : forall (A B : Type) (P : A -> Prop) (Q : B -> Prop) (x : res A) (f : A -> res B),
  safe P x -> (forall a, x = Ok a -> P a -> safe Q (f a)) -> safe Q (bind x f).
Proof.
  intros A B P Q x f Hx Hf. destruct x as [a| |u|]; simpl in *; auto.
Qed.

Lemma safe_weaken : forall (A : Type) (P Q : A -> Prop) (x : res A),
  safe P x -> (forall a, P a -> Q a) -> safe Q x.
Proof. intros A P Q [a| |u|] H HPQ; simpl in *; auto. Qed.

Lemma safe_ok : forall (A : Type) (P : A -> Prop) (x : res A) (a : A), safe P x -> x = Ok a -> P a.
Proof. intros A P x a H E. rewrite E in H. exact H. Qed.

Lemma bind_ok : forall (A B : Type) (x : res A) (f : A -> res B) (b : B),
  bind x f = Ok b -> exists a, x = Ok a /\ f a = Ok b.
Proof. intros A B [a| |u|] f b H; simpl in H; try discriminate. eauto. Qed.

Lemma zlen_nonneg : forall (A : Type) (l : list A), 0 <= zlen l.
Proof. intros. unfold zlen. lia. Qed.

Lemma zlen_nil : forall (A : Type), zlen (@nil A) = 0.
Proof. reflexivity. Qed.

Lemma zlen_cons : forall (A : Type) (x : A) l, zlen (x :: l) = 1 + zlen l.
Proof. intros. unfold zlen. cbn [length]. lia. Qed.

Lemma zlen_app : forall (A : Type) (l1 l2 : list A), zlen (l1 ++ l2) = zlen l1 + zlen l2.
Proof. intros. unfold zlen. rewrite app_length. lia. Qed.

Lemma zlen_map : forall (A B : Type) (f : A -> B) l, zlen (map f l) = zlen l.
Proof. intros. unfold zlen. rewrite map_length. reflexivity. Qed.

Lemma zseq_length : forall n o, length (zseq o n) = n.
Proof. induction n as [|n IH]; intros o; simpl; [|rewrite IH]; reflexivity. Qed.

Lemma zlen_zseq : forall n o, zlen (zseq o n) = Z.of_nat n.
Proof. intros. unfold zlen. rewrite zseq_length. reflexivity. Qed.

Lemma zseq_in : forall n o x, In x (zseq o n) <-> o <= x < o + Z.of_nat n.
Proof.
  induction n as [|n IH]; intros o x; simpl; [lia|]. rewrite IH. lia.
Qed.

Lemma bytes_eqb_eq : forall a b, bytes_eqb a b = true <-> a = b.
Proof.
  induction a as [|x a IH]; intros [|y b]; simpl; split; intros H; try discriminate; try reflexivity.
  - apply andb_prop in H. destruct H as [H1 H2]. apply Z.eqb_eq in H1. apply IH in H2. congruence.
  - inversion H; subst. rewrite Z.eqb_refl. simpl. apply IH. reflexivity.
Qed.

Lemma bytes_eqb_refl : forall a, bytes_eqb a a = true.
Proof. intros a. apply bytes_eqb_eq. reflexivity. Qed.

Lemma bytes_eqb_neq : forall a b, bytes_eqb a b = false <-> a <> b.
Proof.
  intros a b. split; intros H.
  - intros E. apply bytes_eqb_eq in E. congruence.
  - destruct (bytes_eqb a b) eqn:E; [|reflexivity]. apply bytes_eqb_eq in E. contradiction.
Qed.

Lemma bytes_app : forall a b, bytes (a ++ b) <-> bytes a /\ bytes b.
Proof. intros. unfold bytes. apply Forall_app. Qed.

Lemma upd_length : forall (A : Type) (l : list A) i v, length (upd l i v) = length l.
Proof. induction l as [|x l IH]; intros [|i] v; simpl; auto. Qed.

Lemma zlen_upd : forall (A : Type) (l : list A) i v, zlen (upd l i v) = zlen l.
Proof. intros. unfold zlen. rewrite upd_length. reflexivity. Qed.

Lemma upd_app_l : forall (A : Type) (l1 l2 : list A) i v, (i < length l1)%nat -> upd (l1 ++ l2) i v = upd l1 i v ++ l2.
Proof.
  induction l1 as [|x l1 IH]; intros l2 [|i] v H; simpl in *; try lia; auto.
  rewrite IH by lia. reflexivity.
Qed.

Lemma upd_app_r : forall (A : Type) (l1 l2 : list A) i v, upd (l1 ++ l2) (length l1 + i) v = l1 ++ upd l2 i v.
Proof. induction l1 as [|x l1 IH]; intros l2 i v; simpl; auto. rewrite IH. reflexivity. Qed.

Lemma nth_upd_same : forall (A : Type) (l : list A) i v d, (i < length l)%nat -> nth i (upd l i v) d = v.
Proof. induction l as [|x l IH]; intros [|i] v d H; simpl in *; try lia; auto. apply IH. lia. Qed.

Lemma nth_upd_other : forall (A : Type) (l : list A) i j v d, i <> j -> nth j (upd l i v) d = nth j l d.
Proof. induction l as [|x l IH]; intros [|i] [|j] v d H; simpl in *; try congruence; auto. Qed.

Lemma zget_app_l : forall l1 l2 i, i < zlen l1 -> zget (l1 ++ l2) i = zget l1 i.
Proof.
  intros l1 l2 i H. unfold zget. rewrite zlen_app. pose proof (zlen_nonneg _ l2) as N.
  destruct (Z.leb_spec 0 i) as [L|L]; simpl; [|reflexivity].
  destruct (Z.ltb_spec i (zlen l1 + zlen l2)); [|lia].
  destruct (Z.ltb_spec i (zlen l1)); [|lia]. apply app_nth1. unfold zlen in *. lia.
Qed.

Lemma zget_app_r : forall l1 l2 i, zlen l1 <= i -> zget (l1 ++ l2) i = zget l2 (i - zlen l1).
Proof.
  intros l1 l2 i H. unfold zget. rewrite zlen_app. pose proof (zlen_nonneg _ l1) as N.
  destruct (Z.leb_spec 0 i) as [L|L]; [|lia]. destruct (Z.leb_spec 0 (i - zlen l1)); [|lia]. simpl.
  destruct (Z.ltb_spec i (zlen l1 + zlen l2)); destruct (Z.ltb_spec (i - zlen l1) (zlen l2)); try lia; auto.
  rewrite app_nth2 by (unfold zlen in *; lia). f_equal. unfold zlen in *. lia.
Qed.

Lemma zget_app_at : forall l1 l2 i j, j = zlen l1 + i -> 0 <= i -> zget (l1 ++ l2) j = zget l2 i.
Proof. intros. subst. rewrite zget_app_r by lia. f_equal. lia. Qed.

Lemma zget_0 : forall x l, zget (x :: l) 0 = x.
Proof. intros. unfold zget. rewrite zlen_cons. pose proof (zlen_nonneg _ l).
  destruct (Z.ltb_spec 0 (1 + zlen l)); [|lia]. reflexivity. Qed.

Lemma zget_cons : forall x l i, 0 < i -> zget (x :: l) i = zget l (i - 1).
Proof.
  intros. change (x :: l) with ([x] ++ l). rewrite zget_app_r by (unfold zlen; simpl; lia). reflexivity.
Qed.

Lemma zget_out : forall l i, zlen l <= i -> zget l i = 0.
Proof. intros. unfold zget. destruct (Z.ltb_spec i (zlen l)); [lia|]. rewrite andb_false_r. reflexivity. Qed.

Lemma zget_neg : forall l i, i < 0 -> zget l i = 0.
Proof. intros. unfold zget. destruct (Z.leb_spec 0 i); [lia|]. reflexivity. Qed.

Lemma zget_byte : forall l i, bytes l -> is_byte (zget l i).
Proof.
  intros l i H. unfold zget. destruct ((0 <=? i) && (i <? zlen l)) eqn:E; [|unfold is_byte; lia].
  unfold bytes in H. rewrite Forall_forall in H. apply H. apply nth_In. unfold zlen in E. lia.
Qed.

Lemma byte_cases : forall (P : Z -> Prop), (forall n, (n < 256)%nat -> P (Z.of_nat n)) -> forall c, is_byte c -> P c.
Proof. intros P H c Hc. unfold is_byte in Hc. rewrite <- (Z2Nat.id c) by lia. apply H. lia. Qed.

(* decide a property of all bytes by computation *)
Lemma byte_forallb : forall (p : Z -> bool), forallb p (zseq 0 256) = true -> forall c, is_byte c -> p c = true.
Proof.
  intros p H c Hc. rewrite forallb_forall in H. apply H. apply zseq_in. unfold is_byte in Hc. lia.
Qed.

Lemma land_192 : forall c, is_byte c -> (Z.land c 192 =? 0) = (c <? 64).
Proof.
  intros c Hc. pose proof (byte_forallb (fun c => Bool.eqb (Z.land c 192 =? 0) (c <? 64)) eq_refl c Hc) as E.
  apply Bool.eqb_prop in E. exact E.
Qed.

Lemma lor_disjoint_add : forall a b n, 0 <= n -> 0 <= b < 2 ^ n -> Z.lor (a * 2 ^ n) b = a * 2 ^ n + b.
Proof.
  intros a b n Hn Hb.
  assert (E : Z.land (a * 2 ^ n) b = 0).
  { apply Z.bits_inj'. intros i Hi. rewrite Z.land_spec, Z.bits_0.
    destruct (Z.lt_ge_cases i n) as [L|L].
    - rewrite Z.mul_pow2_bits_low by lia. reflexivity.
    - replace (Z.testbit b i) with false; [apply andb_false_r|].
      symmetry. destruct (Z.eq_dec b 0) as [->|Nz]; [apply Z.bits_0|].
      apply Z.bits_above_log2; [lia|]. apply Z.log2_lt_pow2; [lia|].
      apply Z.lt_le_trans with (2 ^ n); [lia|]. apply Z.pow_le_mono_r; lia. }
  rewrite Z.add_nocarry_lxor by exact E. symmetry. apply Z.lxor_lor. exact E.
Qed.

Lemma lor_shiftl_8 : forall a b, is_byte b -> Z.lor (Z.shiftl a 8) b = a * 256 + b.
Proof. intros a b Hb. rewrite Z.shiftl_mul_pow2 by lia. apply (lor_disjoint_add a b 8); [lia|exact Hb]. Qed.
