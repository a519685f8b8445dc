From Verif Require Import Base Lemmas Hash.

Lemma testbit_above : forall a n i, 0 <= a < 2 ^ n -> 0 <= n <= i -> Z.testbit a i = false.
Proof.
  intros a n i Ha Hi. destruct (Z.eq_dec a 0) as [->|Hz]; [apply Z.bits_0|].
  apply Z.bits_above_log2; [lia|]. apply Z.log2_lt_pow2; [lia|]. apply Z.lt_le_trans with (2 ^ n); [lia|]. apply Z.pow_le_mono_r; lia.
Qed.

Lemma mask_bits : forall i, 28 <= i < 32 -> Z.testbit 4026531840 i = true.
Proof. intros i Hi. assert (i = 28 \/ i = 29 \/ i = 30 \/ i = 31) as [->|[->|[->| ->]]] by lia; reflexivity. Qed.

Lemma small_of_bits : forall a n, 0 <= n -> 0 <= a -> (forall i, n <= i -> Z.testbit a i = false) -> a < 2 ^ n.
Proof.
  intros a n Hn Ha H. destruct (Z.lt_ge_cases a (2 ^ n)) as [L|L]; [exact L|].
  assert (0 < a) by (assert (0 < 2 ^ n) by (apply Z.pow_pos_nonneg; lia); lia).
  assert (Hl : n <= Z.log2 a). { apply Z.log2_le_pow2; lia. }
  pose proof (Z.bit_log2 a ltac:(lia)) as B. rewrite (H (Z.log2 a) Hl) in B. discriminate.
Qed.

Lemma hash_step_nibble : forall h c i, 28 <= i < 32 -> Z.testbit (hash_step h c) i = false.
Proof.
  intros h c i Hi. unfold hash_step. cbv zeta. set (x := (Z.shiftl h 4 + c) mod 2 ^ 64).
  set (g := Z.land x 4026531840).
  assert (Hx : 0 <= x < 2 ^ 64) by (unfold x; apply Z.mod_pos_bound; lia).
  assert (Hg : 0 <= g < 2 ^ 32).
  { unfold g. split; [apply Z.land_nonneg; lia|].
    apply small_of_bits; [lia|apply Z.land_nonneg; lia|]. intros j Hj. rewrite Z.land_spec. rewrite (testbit_above 4026531840 32 j) by lia. apply andb_false_r. }
  assert (Hbit : Z.testbit g i = Z.testbit x i).
  { unfold g. rewrite Z.land_spec, mask_bits by lia. apply andb_true_r. }
  rewrite Z.land_spec. rewrite Z.mod_pow2_bits_low by lia. rewrite Z.lnot_spec by lia. rewrite Hbit.
  destruct (negb (g =? 0)).
  - rewrite Z.lxor_spec. rewrite Z.shiftr_spec by lia. rewrite (testbit_above g 32 (i + 24)) by lia. rewrite xorb_false_r. apply andb_negb_r.
  - apply andb_negb_r.
Qed.

Lemma hash_fold_nibble : forall s h, (forall i, 28 <= i < 32 -> Z.testbit h i = false) ->
  forall i, 28 <= i < 32 -> Z.testbit (fold_left hash_step s h) i = false.
Proof.
  induction s as [|c s IH]; intros h Hh i Hi; cbn [fold_left]; [apply Hh; exact Hi|]. apply IH; [|exact Hi].
  intros j Hj. apply hash_step_nibble. exact Hj.
Qed.

(* C11: the value fits 28 bits, so it is never negative. *)
Lemma namehash_range : forall s, 0 <= namehash s < 2 ^ 28.
Proof.
  intros s. unfold namehash, to_int. cbv zeta. set (h := fold_left hash_step s 0).
  assert (Hn : forall i, 28 <= i < 32 -> Z.testbit h i = false).
  { apply hash_fold_nibble. intros i Hi. apply Z.bits_0. }
  set (l := h mod 2 ^ 32). assert (Hl : 0 <= l < 2 ^ 32) by (unfold l; apply Z.mod_pos_bound; reflexivity).
  assert (Hs : l < 2 ^ 28).
  { apply small_of_bits; [lia|lia|]. intros i Hi. destruct (Z.lt_ge_cases i 32) as [L|L].
    - unfold l. rewrite Z.mod_pow2_bits_low by lia. apply Hn. lia.
    - apply testbit_above with (n := 32); lia. }
  assert (2 ^ 28 < 2 ^ 31) by reflexivity. destruct (Z.ltb_spec l (2 ^ 31)); lia.
Qed.

Lemma bucket_index_range : forall s prime, 0 < prime -> 0 <= bucket_index s prime < prime.
Proof.
  intros s prime Hp. unfold bucket_index. pose proof (namehash_range s) as H. rewrite Z.rem_mod_nonneg by lia. apply Z.mod_pos_bound. exact Hp.
Qed.
