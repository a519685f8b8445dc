(* Proofs about the configuration files. *)
From Verif Require Import Base Lemmas Lib SpecLib FactsLib Conf SpecConf.

Lemma cstr_app : forall s rest, ~ In 0 s -> cstr (s ++ 0 :: rest) = s.
Proof.
  induction s as [|x s IH]; intros rest N; cbn [app cstr]; [reflexivity|].
  destruct (Z.eqb_spec x 0) as [->|D]; [exfalso; apply N; left; reflexivity|]. rewrite IH; [reflexivity|]. intros K. apply N. right. exact K.
Qed.

Lemma strlen_ok : forall buf s, holds_string buf s -> strlcpy_skip (S (length buf)) buf 0 = Ok (zlen s + 1).
Proof.
  intros buf s (N & rest & ->). pose proof (skip_ok s (S (length (s ++ 0 :: rest))) [] rest N) as K. cbn [app] in K. change (zlen []) with 0 in K.
  rewrite K; [f_equal; lia|]. rewrite app_length. lia.
Qed.

(* A string without the newlines at its end *)
Lemma trim : forall s : list Z, exists t k, s = t ++ repeat 10 k /\ (t = [] \/ exists u c, t = u ++ [c] /\ c <> 10).
Proof.
  induction s as [|c s IH] using rev_ind.
  - exists [], 0%nat. split; [reflexivity|left; reflexivity].
  - destruct (Z.eq_dec c 10) as [->|D].
    + destruct IH as (t & k & -> & H). exists t, (S k). split; [|exact H]. rewrite <- app_assoc. f_equal. clear. induction k as [|k IH]; cbn [repeat app]; [reflexivity|]. rewrite IH. reflexivity.
    + exists (s ++ [c]), 0%nat. split; [rewrite app_nil_r; reflexivity|]. right. exists s, c. split; [reflexivity|exact D].
Qed.
Lemma repeat_snoc : forall k (x : Z), repeat x (S k) = repeat x k ++ [x].
Proof. induction k as [|k IH]; intros x; [reflexivity|]. cbn [repeat app]. f_equal. exact (IH x). Qed.
Lemma zlen_repeat : forall k (x : Z), zlen (repeat x k) = Z.of_nat k.
Proof. intros k x. unfold zlen. rewrite repeat_length. reflexivity. Qed.

Lemma chomp_loop_ok : forall k fuel u c rest, c <> 10 -> (k < fuel)%nat ->
  chomp_loop fuel ((u ++ [c]) ++ repeat 10 k ++ rest) (zlen (u ++ [c]) + Z.of_nat k - 1) = Ok ((u ++ [c]) ++ repeat 0 k ++ rest).
Proof.
  induction k as [|k IH]; intros fuel u c rest D L; destruct fuel as [|fuel]; try lia; cbn [chomp_loop].
  - cbn [repeat app]. rewrite zlen_app, zlen_cons, zlen_nil. rewrite <- app_assoc. cbn [app].
    rewrite cget_ok by (rewrite zlen_app, zlen_cons; pose proof (zlen_nonneg _ u); pose proof (zlen_nonneg _ rest); lia).
    cbn [bind]. rewrite zget_mid by lia. replace (c =? 10) with false by lia. reflexivity.
  - rewrite repeat_snoc, <- (app_assoc (repeat 10 k)). cbn [app]. rewrite (app_assoc (u ++ [c])).
    assert (Z1 : zlen ((u ++ [c]) ++ repeat 10 k) = zlen (u ++ [c]) + Z.of_nat (S k) - 1) by (rewrite zlen_app, zlen_repeat; lia).
    rewrite cget_ok by (rewrite (zlen_app _ ((u ++ [c]) ++ repeat 10 k)), zlen_cons, Z1; pose proof (zlen_nonneg _ (u ++ [c])); pose proof (zlen_nonneg _ rest); lia).
    cbn [bind]. rewrite zget_mid by (symmetry; exact Z1). rewrite Z.eqb_refl.
    rewrite cset_ok by (rewrite (zlen_app _ ((u ++ [c]) ++ repeat 10 k)), zlen_cons, Z1; pose proof (zlen_nonneg _ (u ++ [c])); pose proof (zlen_nonneg _ rest); lia).
    cbn [bind]. rewrite <- Z1. replace (Z.to_nat (zlen ((u ++ [c]) ++ repeat 10 k))) with (length ((u ++ [c]) ++ repeat 10 k)) by (unfold zlen; lia).
    rewrite upd_mid, Z1, <- app_assoc.
    replace (zlen (u ++ [c]) + Z.of_nat (S k) - 1 - 1) with (zlen (u ++ [c]) + Z.of_nat k - 1) by lia.
    rewrite IH by (try exact D; lia). rewrite repeat_snoc, <- !app_assoc. reflexivity.
Qed.
Lemma chomp_loop_bad : forall k fuel rest, (k < fuel)%nat -> chomp_loop fuel (repeat 10 k ++ rest) (Z.of_nat k - 1) = UB (OobRead (-1)).
Proof.
  induction k as [|k IH]; intros fuel rest L; destruct fuel as [|fuel]; try lia; cbn [chomp_loop].
  - reflexivity.
  - rewrite repeat_snoc, <- app_assoc. cbn [app].
    assert (Z1 : zlen (repeat 10 k) = Z.of_nat (S k) - 1) by (rewrite zlen_repeat; lia).
    rewrite cget_ok by (rewrite zlen_app, zlen_cons, Z1; pose proof (zlen_nonneg _ rest); lia).
    cbn [bind]. rewrite zget_mid by (symmetry; exact Z1). rewrite Z.eqb_refl.
    rewrite cset_ok by (rewrite zlen_app, zlen_cons, Z1; pose proof (zlen_nonneg _ rest); lia).
    cbn [bind]. rewrite <- Z1. replace (Z.to_nat (zlen (repeat 10 k))) with (length (repeat 10 k)) by (unfold zlen; lia).
    rewrite upd_mid, Z1. replace (Z.of_nat (S k) - 1 - 1) with (Z.of_nat k - 1) by lia. apply IH. lia.
Qed.

Lemma chomp_ok : forall buf u c k, holds_string buf ((u ++ [c]) ++ repeat 10 k) -> c <> 10 ->
  exists rest, chomp buf = Ok ((u ++ [c]) ++ 0 :: rest, true) /\ length ((u ++ [c]) ++ 0 :: rest) = length buf.
Proof.
  intros buf u c k H D. unfold chomp. rewrite (strlen_ok buf _ H). cbn [bind]. destruct H as (N & rest & ->).
  replace (zlen ((u ++ [c]) ++ repeat 10 k) + 1 - 1 <? 1) with false.
  2:{ rewrite !zlen_app, zlen_cons, zlen_nil. pose proof (zlen_nonneg _ u). pose proof (zlen_nonneg _ (repeat 10 k)). lia. }
  rewrite <- (app_assoc (u ++ [c])). rewrite (zlen_app _ (u ++ [c]) (repeat 10 k)), zlen_repeat.
  replace (zlen (u ++ [c]) + Z.of_nat k + 1 - 1 - 1) with (zlen (u ++ [c]) + Z.of_nat k - 1) by lia.
  rewrite chomp_loop_ok; [|exact D|rewrite !app_length, repeat_length; cbn [length]; lia]. cbn [bind].
  destruct k as [|k].
  - exists rest. split; reflexivity.
  - exists (repeat 0 k ++ 0 :: rest). cbn [repeat app]. split; [reflexivity|]. rewrite !app_length. cbn [length]. rewrite !app_length, !repeat_length. reflexivity.
Qed.

(* What one line does *)
Definition effect (t : list Z) (s : conf_srec) : conf_srec :=
  match t with
  | 35 :: _ => s
  | _ => match strsep t with (token, Some a) => keyword token a s | (_, None) => s end
  end.

Lemma effect_hash : forall c t s, effect (c :: t) s = if c =? 35 then s else match strsep (c :: t) with (token, Some a) => keyword token a s | (_, None) => s end.
Proof.
  intros c t s. unfold effect. destruct (Z.eqb_spec c 35) as [->|D]; [reflexivity|].
  destruct c as [|p|p]; try reflexivity. do 6 (destruct p as [p|p|]; try reflexivity). congruence.
Qed.

Lemma read_line_ok : forall buf u c k s, holds_string buf ((u ++ [c]) ++ repeat 10 k) -> c <> 10 ->
  exists buf', read_line buf s = Ok (buf', effect (u ++ [c]) s) /\ length buf' = length buf.
Proof.
  intros buf u c k s H D. destruct (chomp_ok buf u c k H D) as (rest & E & L). unfold read_line. rewrite E. cbn [bind].
  assert (N : ~ In 0 (u ++ [c])) by (intros K; apply (proj1 H); apply in_or_app; left; exact K).
  assert (F : exists x t, u ++ [c] = x :: t) by (destruct u; eexists; eexists; reflexivity). destruct F as (x & t & F).
  rewrite cstr_app by exact N. rewrite F in *. cbn [app] in *. rewrite cget_ok by (rewrite zlen_cons; pose proof (zlen_nonneg _ (t ++ 0 :: rest)); lia). cbn [bind].
  rewrite zget_0, effect_hash. destruct (x =? 35); [eexists; split; [reflexivity|exact L]|].
  destruct (strsep (x :: t)) as [tok [a|]]; eexists; (split; [reflexivity|exact L]).
Qed.
Lemma read_line_empty : forall buf s, holds_string buf [] -> read_line buf s = Ok (buf, s).
Proof.
  intros buf s H. unfold read_line, chomp. rewrite (strlen_ok buf [] H). cbn [bind]. change (zlen [] + 1 - 1 <? 1) with true. cbv iota. cbn [bind].
  destruct H as (_ & rest & ->). cbn [app]. rewrite cget_ok by (rewrite zlen_cons; pose proof (zlen_nonneg _ rest); lia). cbn [bind]. rewrite zget_0. reflexivity.
Qed.
Lemma read_line_blank : forall buf k s, holds_string buf (repeat 10 (S k)) -> read_line buf s = UB (OobRead (-1)).
Proof.
  intros buf k s H. unfold read_line, chomp. rewrite (strlen_ok buf _ H). cbn [bind]. rewrite zlen_repeat.
  replace (Z.of_nat (S k) + 1 - 1 <? 1) with false by lia. destruct H as (_ & rest & ->).
  replace (Z.of_nat (S k) + 1 - 1 - 1) with (Z.of_nat (S k) - 1) by lia.
  rewrite chomp_loop_bad; [reflexivity|]. rewrite app_length, repeat_length. lia.
Qed.

(* C57, one line *)
Lemma line_safe : forall line str s, holds_string line str -> (str = [] \/ exists c, In c str /\ c <> 10) ->
  exists line' s', read_line line s = Ok (line', s') /\ zlen line' = zlen line.
Proof.
  intros line str s H C. destruct (trim str) as (t & k & -> & [->|(u & c & -> & D)]).
  - destruct C as [C|(c & I & D)].
    + cbn [app] in *. rewrite C in H. rewrite (read_line_empty line s H). eauto.
    + cbn [app] in I. apply repeat_spec in I. congruence.
  - destruct (read_line_ok line u c k s H D) as (b & E & L). exists b, (effect (u ++ [c]) s). split; [exact E|]. unfold zlen. rewrite L. reflexivity.
Qed.
Lemma line_blank : forall line str s, holds_string line str -> str <> [] -> (forall c, In c str -> c = 10) -> read_line line s = UB (OobRead (-1)).
Proof.
  intros line str s H NE A. assert (E : str = repeat 10 (length str)).
  { clear - A. induction str as [|c str IH]; cbn [length repeat]; [reflexivity|]. rewrite (A c) by (left; reflexivity). f_equal. apply IH. intros d I. apply A. right. exact I. }
  destruct str as [|c str]; [congruence|]. cbn [length] in E. rewrite E in H. exact (read_line_blank line (length str) s H).
Qed.

(* ------------------------------------------------------------------ *)
(* Files *)
Lemma fgets_line : forall l n rest, ~ In 10 l -> (length l < n)%nat -> fgets n (l ++ 10 :: rest) = (l ++ [10], rest).
Proof.
  induction l as [|c l IH]; intros n rest N L; destruct n as [|n]; cbn [length] in L; try lia; cbn [app fgets]; [reflexivity|].
  destruct (Z.eqb_spec c 10) as [->|D]; [exfalso; apply N; left; reflexivity|].
  rewrite IH; [reflexivity|intros K; apply N; right; exact K|lia].
Qed.
Lemma fgets_last : forall l n, ~ In 10 l -> (length l <= n)%nat -> fgets n l = (l, []).
Proof.
  induction l as [|c l IH]; intros n N L; destruct n as [|n]; cbn [length] in L; try lia; cbn [fgets]; try reflexivity.
  destruct (Z.eqb_spec c 10) as [->|D]; [exfalso; apply N; left; reflexivity|].
  rewrite IH; [reflexivity|intros K; apply N; right; exact K|lia].
Qed.
Lemma fgets_cut : forall n l rest, ~ In 10 l -> (n <= length l)%nat -> fgets n (l ++ rest) = (firstn n l, skipn n l ++ rest).
Proof.
  induction n as [|n IH]; intros l rest N L; [cbn [fgets firstn skipn]; destruct (l ++ rest); reflexivity|].
  destruct l as [|c l]; cbn [length] in L; [lia|]. cbn [app fgets firstn skipn].
  destruct (Z.eqb_spec c 10) as [->|D]; [exfalso; apply N; left; reflexivity|].
  rewrite IH; [reflexivity|intros K; apply N; right; exact K|lia].
Qed.
Lemma fgets_spec : forall n file, (0 < n)%nat -> file <> [] -> let '(got, rest) := fgets n file in
  file = got ++ rest /\ got <> [] /\ (length got <= n)%nat /\ (exists l, ~ In 10 l /\ (got = l \/ got = l ++ [10])).
Proof.
  induction n as [|n IH]; intros file P NE; [lia|]. destruct file as [|c file]; [congruence|]. cbn [fgets].
  destruct (Z.eqb_spec c 10) as [->|D].
  - split; [reflexivity|]. split; [discriminate|]. split; [cbn [length]; lia|]. exists []. split; [intros []|right; reflexivity].
  - destruct n as [|n].
    + assert (E : fgets 0 file = ([], file)) by (destruct file; reflexivity).
      rewrite E. split; [reflexivity|]. split; [discriminate|]. split; [cbn [length]; lia|]. exists [c]. split; [intros [K|[]]; congruence|left; reflexivity].
    + destruct file as [|e file].
      * cbn [fgets]. split; [reflexivity|]. split; [discriminate|]. split; [cbn [length]; lia|]. exists [c]. split; [intros [K|[]]; congruence|left; reflexivity].
      * specialize (IH (e :: file)). destruct (fgets (S n) (e :: file)) as [a b]. destruct IH as (E & NA & L & l & N & O); [lia|discriminate|].
        split; [cbn [app]; congruence|]. split; [discriminate|]. split; [cbn [length]; lia|].
        exists (c :: l). split; [intros [K|K]; [congruence|exact (N K)]|]. destruct O as [->| ->]; [left|right]; reflexivity.
Qed.

(* One piece read into the buffer *)
Lemma buffer : forall got line, (length got < length line)%nat -> length (got ++ 0 :: skipn (S (length got)) line) = length line.
Proof. intros got line L. rewrite app_length. cbn [length]. rewrite skipn_length. lia. Qed.
Lemma cstr_prefix : forall l, exists r, l = cstr l ++ r /\ (r = [] \/ exists r', r = 0 :: r').
Proof.
  induction l as [|c l (r & E & O)]; [exists []; auto|]. cbn [cstr]. destruct (Z.eqb_spec c 0) as [->|D].
  - exists (0 :: l). split; [reflexivity|right; eauto].
  - exists r. split; [cbn [app]; congruence|exact O].
Qed.
Lemma cstr_nonul : forall l, ~ In 0 (cstr l).
Proof. induction l as [|c l IH]; cbn [cstr]; [intros []|]. destruct (Z.eqb_spec c 0) as [->|D]; [intros []|]. intros [K|K]; [congruence|exact (IH K)]. Qed.
Lemma holds_got : forall got line, holds_string (got ++ 0 :: line) (cstr got).
Proof.
  intros got line. split; [apply cstr_nonul|]. destruct (cstr_prefix got) as (r & E & [->|(r' & ->)]).
  - exists line. rewrite E at 1. rewrite app_nil_r. reflexivity.
  - exists (r' ++ 0 :: line). rewrite E at 1. rewrite <- app_assoc. reflexivity.
Qed.

Inductive chunky : list Z -> Prop :=
| ck_nil : chunky []
| ck_cons : forall file got rest, file <> [] -> fgets 255 file = (got, rest) -> got <> [10] -> chunky rest -> chunky file.

Lemma got_ok : forall got l line s, ~ In 10 l -> got = l \/ got = l ++ [10] -> got <> [10] -> (length got < length line)%nat ->
  exists line' s', read_line (got ++ 0 :: skipn (S (length got)) line) s = Ok (line', s') /\ length line' = length line.
Proof.
  intros got l line s N O D L.
  destruct (line_safe (got ++ 0 :: skipn (S (length got)) line) (cstr got) s (holds_got got _)) as (b & s' & E & Z1).
  - destruct (cstr got) as [|c t] eqn:E; [left; reflexivity|]. right. exists c. split; [left; reflexivity|].
    destruct O as [->| ->].
    + destruct l as [|x l]; [discriminate|]. cbn [cstr] in E. destruct (x =? 0); [discriminate|]. inversion E; subst. intros ->. apply N. left. reflexivity.
    + destruct l as [|x l]; [exfalso; apply D; reflexivity|]. cbn [app cstr] in E. destruct (x =? 0); [discriminate|]. inversion E; subst. intros ->. apply N. left. reflexivity.
  - exists b, s'. split; [exact E|]. unfold zlen in Z1. rewrite (buffer got line L) in Z1. lia.
Qed.

Lemma parse_chunky : forall file, chunky file -> forall fuel line s, length line = 256%nat -> (length file < fuel)%nat -> exists s', parse_loop fuel line file s = Ok s'.
Proof.
  induction 1 as [|file got rest NE E D C IH]; intros fuel line s L F; destruct fuel as [|fuel]; try lia; cbn [parse_loop].
  - eauto.
  - pose proof (fgets_spec 255 file) as S. rewrite E in S. destruct S as (Ef & NG & Lg & l & N & O); [lia|exact NE|].
    destruct (got_ok got l line s N O D) as (line' & s' & R & L'); [lia|].
    destruct file as [|c file]; [congruence|]. change (Z.to_nat (LINE - 1)) with 255%nat. rewrite E. rewrite R. cbn [bind].
    apply IH; [lia|]. rewrite Ef, app_length in F. destruct got; [congruence|cbn [length] in F; lia].
Qed.

Lemma chunky_last : forall n l, (length l <= n)%nat -> ~ In 10 l -> chunky l.
Proof.
  induction n as [n IH] using lt_wf_ind. intros l L N. destruct l as [|c l]; [constructor|].
  destruct (le_lt_dec (length (c :: l)) 255) as [A|A].
  - eapply ck_cons; [discriminate|apply fgets_last; [exact N|exact A]| |constructor]. intros E. apply N. rewrite E. left. reflexivity.
  - pose proof (fgets_cut 255 (c :: l) [] N ltac:(lia)) as G. rewrite !app_nil_r in G. eapply ck_cons; [discriminate|exact G| |].
    + intros K. apply N. rewrite <- (firstn_skipn 255 (c :: l)), K. left. reflexivity.
    + apply (IH (n - 1)%nat).
      * cbn [length] in L. lia.
      * rewrite skipn_length. cbn [length] in *. lia.
      * intros K. apply N. rewrite <- (firstn_skipn 255 (c :: l)). apply in_or_app. right. exact K.
Qed.
Lemma chunky_line : forall n l rest, (length l <= n)%nat -> ~ In 10 l -> zlen l mod 255 <> 0 -> chunky rest -> chunky (l ++ 10 :: rest).
Proof.
  induction n as [n IH] using lt_wf_ind. intros l rest L N M C.
  destruct (le_lt_dec 255 (length l)) as [A|A].
  - eapply ck_cons; [destruct l; discriminate|apply fgets_cut; [exact N|exact A]| |].
    + intros K. apply N. rewrite <- (firstn_skipn 255 l), K. left. reflexivity.
    + apply (IH (n - 1)%nat).
      * lia.
      * rewrite skipn_length. lia.
      * intros K. apply N. rewrite <- (firstn_skipn 255 l). apply in_or_app. right. exact K.
      * unfold zlen in *. rewrite skipn_length. replace (Z.of_nat (length l - 255)) with (Z.of_nat (length l) + (-1) * 255) by lia. rewrite Z.mod_add by lia. exact M.
      * exact C.
  - eapply ck_cons; [destruct l; discriminate|apply fgets_line; [exact N|exact A]| |exact C].
    intros K. destruct l as [|c l]; [apply M; reflexivity|]. cbn [app] in K. destruct l; discriminate K.
Qed.

Definition readable (l : list Z) : Prop := ~ In 10 l /\ zlen l mod 255 <> 0.
Lemma text_cons : forall l lines last, text (l :: lines) last = l ++ 10 :: text lines last.
Proof. intros. unfold text. cbn [flat_map]. rewrite <- !app_assoc. reflexivity. Qed.
Lemma text_chunky : forall lines last, Forall readable lines -> ~ In 10 last -> chunky (text lines last).
Proof.
  intros lines last F N. induction F as [|l lines [A B] F IH].
  - unfold text. cbn [flat_map app]. exact (chunky_last (length last) last ltac:(lia) N).
  - rewrite text_cons. exact (chunky_line (length l) l _ ltac:(lia) A B IH).
Qed.

(* C57, files *)
Lemma file_safe : forall line lines last s, zlen line = 256 -> Forall (fun l => ~ In 10 l /\ zlen l mod 255 <> 0) lines -> ~ In 10 last ->
  exists s', parse line (text lines last) s = Ok s'.
Proof. intros line lines last s L F N. apply parse_chunky; [exact (text_chunky lines last F N)|unfold zlen in L; lia|lia]. Qed.

(* a blank line, or one of 255 or 510 or ... bytes *)
Lemma blank_line : forall n l rest fuel line s, (length l <= n)%nat -> ~ In 10 l -> zlen l mod 255 = 0 -> length line = 256%nat -> (length (l ++ 10%Z :: rest) < fuel)%nat ->
  parse_loop fuel line (l ++ 10 :: rest) s = UB (OobRead (-1)).
Proof.
  induction n as [n IH] using lt_wf_ind. intros l rest fuel line s L N M Ll F. destruct fuel as [|fuel]; [lia|]. cbn [parse_loop].
  assert (X : exists x y, l ++ 10 :: rest = x :: y) by (destruct l; eexists; eexists; reflexivity). destruct X as (x & y & X). rewrite X. rewrite <- X. clear x y X.
  change (Z.to_nat (LINE - 1)) with 255%nat.
  destruct (le_lt_dec 255 (length l)) as [A|A].
  - rewrite (fgets_cut 255 l (10 :: rest) N A).
    assert (Nf : ~ In 10 (firstn 255 l)) by (intros K; apply N; rewrite <- (firstn_skipn 255 l); apply in_or_app; left; exact K).
    assert (Lf : length (firstn 255 l) = 255%nat) by (rewrite firstn_length; lia).
    destruct (got_ok (firstn 255 l) (firstn 255 l) line s Nf (or_introl eq_refl)) as (b & s' & R & Lb); [|lia|].
    { intros K. apply Nf. rewrite K. left. reflexivity. }
    rewrite R. cbn [bind]. apply (IH (n - 1)%nat).
    + lia.
    + rewrite skipn_length. lia.
    + intros K. apply N. rewrite <- (firstn_skipn 255 l). apply in_or_app. right. exact K.
    + unfold zlen in *. rewrite skipn_length. replace (Z.of_nat (length l - 255)) with (Z.of_nat (length l) + (-1) * 255) by lia. rewrite Z.mod_add by lia. exact M.
    + lia.
    + rewrite app_length, skipn_length. rewrite app_length in F. lia.
  - assert (E : l = []) by (destruct l; [reflexivity|]; unfold zlen in M; cbn [length] in *; rewrite Z.mod_small in M by lia; lia). subst l. cbn [app].
    change (fgets 255 (10 :: rest)) with ([10], rest). cbv iota beta. rewrite (read_line_blank _ 0 s).
    + reflexivity.
    + split; [intros [K|[]]; discriminate K|]. eexists. reflexivity.
Qed.

(* ------------------------------------------------------------------ *)
(* C59 *)
Lemma parse_plain : forall lines last, Forall plain lines -> last = [] \/ plain last -> forall fuel line s, length line = 256%nat -> (length (text lines last) < fuel)%nat ->
  parse_loop fuel line (text lines last) s = Ok (fold_left (fun s l => effect l s) (text_lines lines last) s).
Proof.
  intros lines last F P. assert (K : forall l k line s, plain l -> (k <= 1)%nat -> length line = 256%nat ->
    exists line', read_line ((l ++ repeat 10 k) ++ 0 :: skipn (S (length (l ++ repeat 10 k))) line) s = Ok (line', effect l s) /\ length line' = 256%nat).
  { intros l k line s (B & N & Z0) Hk Ll. destruct l as [|c l] using rev_ind; [unfold zlen in B; cbn in B; lia|]. clear IHl.
    destruct (read_line_ok (((l ++ [c]) ++ repeat 10 k) ++ 0 :: skipn (S (length ((l ++ [c]) ++ repeat 10 k))) line) l c k s) as (b & E & Lb).
    - split; [|eexists; reflexivity]. intros K. apply in_app_or in K as [K|K]; [exact (Z0 K)|]. apply repeat_spec in K. discriminate K.
    - intros ->. apply N. apply in_or_app. right. left. reflexivity.
    - exists b. split; [exact E|]. rewrite Lb, buffer; [exact Ll|]. rewrite app_length, repeat_length. unfold zlen in B. lia. }
  induction F as [|l lines A F IH]; intros fuel line s L Hf.
  - unfold text, text_lines in *. cbn [flat_map app] in *. destruct fuel as [|fuel]; [lia|]. cbn [parse_loop].
    destruct P as [->|P]; [reflexivity|]. destruct last as [|x y] eqn:El; [reflexivity|]. rewrite <- El in *. clear x y El.
    change (Z.to_nat (LINE - 1)) with 255%nat. rewrite (fgets_last last 255).
    2:{ exact (proj1 (proj2 P)). }
    2:{ destruct P as [P _]. unfold zlen in P. lia. }
    destruct (K last 0%nat line s P ltac:(lia) L) as (b & E & Lb). cbn [repeat] in E. rewrite app_nil_r in E. rewrite E. cbn [bind fold_left].
    destruct fuel as [|fuel]; [|reflexivity]. exfalso. destruct last as [|x y]; [destruct P as [P _]; unfold zlen in P; cbn in P; lia|cbn [length] in Hf; lia].
  - rewrite text_cons in *. destruct fuel as [|fuel]; [lia|]. cbn [parse_loop].
    assert (X : exists x y, l ++ 10 :: text lines last = x :: y) by (destruct l; eexists; eexists; reflexivity). destruct X as (x & y & X). rewrite X. rewrite <- X. clear x y X.
    change (Z.to_nat (LINE - 1)) with 255%nat. rewrite (fgets_line l 255).
    2:{ exact (proj1 (proj2 A)). }
    2:{ destruct A as [A _]. unfold zlen in A. lia. }
    destruct (K l 1%nat line s A ltac:(lia) L) as (b & E & Lb). cbn [repeat] in E. rewrite E. cbn [bind].
    rewrite IH; [|exact Lb|rewrite app_length in Hf; cbn [length] in Hf; lia]. reflexivity.
Qed.

Lemma behind_strsep : forall key line, ~ In 32 key -> ~ In 9 key ->
  behind key line = match strsep line with (token, Some a) => if bytes_eqb token key then Some a else None | (_, None) => None end.
Proof.
  induction key as [|k key IH]; intros line N1 N2; destruct line as [|c line]; cbn [behind strsep]; try reflexivity.
  - destruct ((c =? 32) || (c =? 9)); [reflexivity|]. destruct (strsep line) as [a [b|]]; reflexivity.
  - assert (K1 : k <> 32) by (intros ->; apply N1; left; reflexivity). assert (K2 : k <> 9) by (intros ->; apply N2; left; reflexivity).
    rewrite (IH line); [|intros K; apply N1; right; exact K|intros K; apply N2; right; exact K].
    destruct (Z.eqb_spec k c) as [->|D].
    + replace ((c =? 32) || (c =? 9)) with false by lia. destruct (strsep line) as [a [b|]]; cbn [bytes_eqb]; [rewrite Z.eqb_refl; reflexivity|reflexivity].
    + destruct ((c =? 32) || (c =? 9)); [reflexivity|]. destruct (strsep line) as [a [b|]]; cbn [bytes_eqb]; [replace (c =? k) with false by lia; reflexivity|reflexivity].
Qed.

Lemma last_of_cons : forall (A : Type) (x : A) l, last_of (x :: l) = match last_of l with Some y => Some y | None => Some x end.
Proof. intros A x l. revert x. induction l as [|y l IH]; intros x; [reflexivity|]. change (last_of (x :: y :: l)) with (last_of (y :: l)). rewrite IH. destruct (last_of l); reflexivity. Qed.

(* What a line does to each field *)
Definition gives (key l : list Z) (old : option (list Z)) : option (list Z) := match behind key l with Some v => Some v | None => old end.
Lemma effect_fields : forall l s, zlen (s_txt s) <= 42 ->
  s_type (effect l s) = gives word_type l (s_type s) /\ s_name (effect l s) = gives word_name l (s_name s) /\
  s_port (effect l s) = match behind word_port l with Some v => as_int (fst (strtol v)) | None => s_port s end /\
  s_target (effect l s) = gives word_target l (s_target s) /\ s_cname (effect l s) = gives word_cname l (s_cname s) /\
  s_txt (effect l s) = firstn 42 (s_txt s ++ match behind word_txt l with Some v => [v] | None => [] end).
Proof.
  intros l s T. unfold gives.
  assert (Sk : firstn 42 (s_txt s) = s_txt s) by (apply firstn_all2; unfold zlen in T; lia).
  assert (H : (exists t, l = 35 :: t) \/ effect l s = match strsep l with (token, Some a) => keyword token a s | (_, None) => s end).
  { destruct l as [|c t]; [right; reflexivity|]. rewrite effect_hash. destruct (Z.eqb_spec c 35) as [->|D]; [left; eauto|right; reflexivity]. }
  destruct H as [(t & ->)|H].
  { cbn [effect]. change (behind word_type (35 :: t)) with (@None (list Z)). change (behind word_name (35 :: t)) with (@None (list Z)).
    change (behind word_port (35 :: t)) with (@None (list Z)). change (behind word_target (35 :: t)) with (@None (list Z)).
    change (behind word_cname (35 :: t)) with (@None (list Z)). change (behind word_txt (35 :: t)) with (@None (list Z)).
    rewrite app_nil_r, Sk. repeat split. }
  rewrite H. clear H.
  assert (B : forall w, In w [word_type; word_name; word_port; word_target; word_cname; word_txt] ->
    behind w l = match strsep l with (token, Some a) => if bytes_eqb token w then Some a else None | (_, None) => None end).
  { intros w I. apply behind_strsep; intros K; cbn [In] in I; repeat (destruct I as [I|I]; [subst w; vm_compute in K; repeat (destruct K as [K|K]; [discriminate K|]); exact K|]); exact I. }
  rewrite !B by (cbn [In]; auto 10). clear B.
  destruct (strsep l) as [tok [a|]]; [|rewrite app_nil_r, Sk; repeat split].
  destruct s as [ty nm po tg cn tx]. cbn [s_type s_name s_port s_target s_cname s_txt] in *. unfold keyword.
  change K_TYPE with word_type. change K_NAME with word_name. change K_PORT with word_port. change K_TARGET with word_target. change K_CNAME with word_cname. change K_TXT with word_txt.
  assert (X : forall v w, bytes_eqb tok v = true -> bytes_eqb v w = false -> bytes_eqb tok w = false).
  { intros v w A1 A2. apply bytes_eqb_eq in A1. subst v. exact A2. }
  destruct (bytes_eqb tok word_type) eqn:E1; [rewrite !(X word_type) by (try exact E1; reflexivity); cbn [s_type s_name s_port s_target s_cname s_txt]; rewrite app_nil_r, Sk; repeat split|].
  destruct (bytes_eqb tok word_name) eqn:E2; [rewrite !(X word_name) by (try exact E2; reflexivity); cbn [s_type s_name s_port s_target s_cname s_txt]; rewrite app_nil_r, Sk; repeat split|].
  destruct (bytes_eqb tok word_port) eqn:E3; [rewrite !(X word_port) by (try exact E3; reflexivity); cbn [s_type s_name s_port s_target s_cname s_txt]; rewrite app_nil_r, Sk; repeat split|].
  destruct (bytes_eqb tok word_target) eqn:E4; [rewrite !(X word_target) by (try exact E4; reflexivity); cbn [s_type s_name s_port s_target s_cname s_txt]; rewrite app_nil_r, Sk; repeat split|].
  destruct (bytes_eqb tok word_cname) eqn:E5; [rewrite !(X word_cname) by (try exact E5; reflexivity); cbn [s_type s_name s_port s_target s_cname s_txt]; rewrite app_nil_r, Sk; repeat split|].
  destruct (bytes_eqb tok word_txt) eqn:E6; cbn [andb].
  - unfold TXT_MAX. destruct (Z.ltb_spec (zlen tx) 42) as [Lt|Ge]; cbn [s_type s_name s_port s_target s_cname s_txt]; repeat split.
    + symmetry. apply firstn_all2. rewrite app_length. cbn [length]. unfold zlen in Lt. lia.
    + rewrite firstn_app. replace (42 - length tx)%nat with 0%nat by (unfold zlen in *; lia). rewrite Sk. cbn [firstn]. rewrite app_nil_r. reflexivity.
  - cbn [s_type s_name s_port s_target s_cname s_txt]. rewrite app_nil_r, Sk. repeat split.
Qed.

Lemma effects : forall ls s, zlen (s_txt s) <= 42 -> let s' := fold_left (fun s l => effect l s) ls s in
  s_type s' = match last_of (values word_type ls) with Some v => Some v | None => s_type s end /\
  s_name s' = match last_of (values word_name ls) with Some v => Some v | None => s_name s end /\
  s_port s' = match last_of (values word_port ls) with Some v => as_int (fst (strtol v)) | None => s_port s end /\
  s_target s' = match last_of (values word_target ls) with Some v => Some v | None => s_target s end /\
  s_cname s' = match last_of (values word_cname ls) with Some v => Some v | None => s_cname s end /\
  s_txt s' = firstn 42 (s_txt s ++ values word_txt ls).
Proof.
  induction ls as [|l ls IH]; intros s T.
  - cbn [fold_left values flat_map last_of]. rewrite app_nil_r. rewrite firstn_all2 by (unfold zlen in T; lia). repeat split.
  - cbn [fold_left]. cbn zeta in *. destruct (effect_fields l s T) as (E1 & E2 & E3 & E4 & E5 & E6).
    assert (T' : zlen (s_txt (effect l s)) <= 42) by (rewrite E6; unfold zlen; rewrite firstn_length; lia).
    destruct (IH (effect l s) T') as (F1 & F2 & F3 & F4 & F5 & F6).
    rewrite F1, F2, F3, F4, F5, F6, E1, E2, E3, E4, E5, E6. unfold gives, values. cbn [flat_map].
    split; [|split; [|split; [|split; [|split]]]].
    1,2,3,4,5: match goal with |- context [behind ?w ?x] => destruct (behind w x) as [v|] end; cbn [app]; rewrite ?last_of_cons; match goal with |- context [last_of ?m] => destruct (last_of m) end; reflexivity.
    rewrite app_assoc. set (p := s_txt s ++ _). rewrite (firstn_app 42 p), (firstn_app 42 (firstn 42 p)).
    rewrite firstn_firstn, firstn_length. rewrite Nat.min_id. f_equal. f_equal. lia.
Qed.

Lemma file_keywords : forall line lines last, zlen line = 256 -> Forall plain lines -> last = [] \/ plain last ->
  exists s, parse line (text lines last) srec_zero = Ok s /\
  let ls := text_lines lines last in
  s_type s = last_of (values word_type ls) /\ s_name s = last_of (values word_name ls) /\ s_target s = last_of (values word_target ls) /\ s_cname s = last_of (values word_cname ls) /\
  s_txt s = firstn 42 (values word_txt ls) /\
  (values word_port ls = [] -> s_port s = 0) /\
  (forall v, last_of (values word_port ls) = Some v -> is_dec v -> dec_value v < 2 ^ 31 -> s_port s = dec_value v).
Proof.
  intros line lines last L F P. eexists. split.
  - unfold parse. apply parse_plain; [exact F|exact P|unfold zlen in L; lia|lia].
  - cbn zeta. destruct (effects (text_lines lines last) srec_zero) as (E1 & E2 & E3 & E4 & E5 & E6); [cbn; lia|].
    rewrite E1, E2, E3, E4, E5, E6. cbn [srec_zero s_type s_name s_port s_target s_cname s_txt app].
    assert (O : forall o : option (list Z), match o with Some v => Some v | None => None end = o) by (intros [v|]; reflexivity). rewrite !O.
    do 5 (split; [reflexivity|]). split.
    + intros ->. reflexivity.
    + intros v -> D V. rewrite strtol_dec by (try exact D; lia). cbn [fst]. pose proof (value_mono v 0 (proj2 D)) as M. fold (dec_value v) in M.
      unfold as_int. rewrite Z.mod_small by lia. replace (dec_value v <? 2 ^ 31) with true by lia. reflexivity.
Qed.

(* A readable line, however long, is passed *)
Lemma past_line : forall n l rest fuel line s, (length l <= n)%nat -> ~ In 10 l -> zlen l mod 255 <> 0 -> length line = 256%nat -> (length (l ++ 10%Z :: rest) < fuel)%nat ->
  exists fuel' line' s', length line' = 256%nat /\ (length rest < fuel')%nat /\ parse_loop fuel line (l ++ 10 :: rest) s = parse_loop fuel' line' rest s'.
Proof.
  induction n as [n IH] using lt_wf_ind. intros l rest fuel line s L N M Ll F. destruct fuel as [|fuel]; [lia|]. cbn [parse_loop].
  assert (X : exists x y, l ++ 10 :: rest = x :: y) by (destruct l; eexists; eexists; reflexivity). destruct X as (x & y & X). rewrite X. rewrite <- X. clear x y X.
  change (Z.to_nat (LINE - 1)) with 255%nat. rewrite app_length in F. cbn [length] in F.
  destruct (le_lt_dec 255 (length l)) as [A|A].
  - rewrite (fgets_cut 255 l (10 :: rest) N A).
    assert (Nf : ~ In 10 (firstn 255 l)) by (intros K; apply N; rewrite <- (firstn_skipn 255 l); apply in_or_app; left; exact K).
    assert (Lf : length (firstn 255 l) = 255%nat) by (rewrite firstn_length; lia).
    destruct (got_ok (firstn 255 l) (firstn 255 l) line s Nf (or_introl eq_refl)) as (b & s' & R & Lb); [|lia|].
    { intros K. apply Nf. rewrite K. left. reflexivity. }
    rewrite R. cbn [bind]. apply (IH (n - 1)%nat).
    + lia.
    + rewrite skipn_length. lia.
    + intros K. apply N. rewrite <- (firstn_skipn 255 l). apply in_or_app. right. exact K.
    + unfold zlen in *. rewrite skipn_length. replace (Z.of_nat (length l - 255)) with (Z.of_nat (length l) + (-1) * 255) by lia. rewrite Z.mod_add by lia. exact M.
    + lia.
    + rewrite app_length, skipn_length. cbn [length]. lia.
  - rewrite (fgets_line l 255 rest N A).
    destruct (got_ok (l ++ [10]) l line s N (or_intror eq_refl)) as (b & s' & R & Lb).
    { intros K. destruct l as [|c l]; [apply M; reflexivity|]. destruct l; discriminate K. }
    { rewrite app_length. cbn [length]. lia. }
    rewrite R. cbn [bind]. exists fuel, b, s'. split; [lia|]. split; [lia|reflexivity].
Qed.

Lemma file_blank : forall line before l after s, zlen line = 256 -> Forall (fun l => ~ In 10 l /\ zlen l mod 255 <> 0) before -> ~ In 10 l -> zlen l mod 255 = 0 ->
  parse line (text before (l ++ 10 :: after)) s = UB (OobRead (-1)).
Proof.
  intros line before l after s Ll F N M. unfold parse. assert (L : length line = 256%nat) by (unfold zlen in Ll; lia). clear Ll.
  assert (G : forall fuel line s, length line = 256%nat -> (length (text before (l ++ 10%Z :: after)) < fuel)%nat -> parse_loop fuel line (text before (l ++ 10 :: after)) s = UB (OobRead (-1))).
  2:{ apply G; [exact L|lia]. }
  clear line s L. induction F as [|b before [B1 B2] F IH]; intros fuel line s L Hf.
  - unfold text in *. cbn [flat_map app] in *. exact (blank_line (length l) l after fuel line s ltac:(lia) N M L Hf).
  - rewrite text_cons in *. destruct (past_line (length b) b _ fuel line s ltac:(lia) B1 B2 L Hf) as (fuel' & line' & s' & L' & Hf' & ->). apply IH; assumption.
Qed.

(* ------------------------------------------------------------------ *)
(* C58 *)
Lemma dec_loop_spec : forall fuel n acc, 0 <= n < 10 ^ Z.of_nat fuel -> (0 < fuel)%nat ->
  exists ds, dec_loop fuel n acc = ds ++ acc /\ is_dec ds /\ dec_value ds = n /\ (0 < n -> hd 0 ds <> 48) /\ (length ds <= fuel)%nat.
Proof.
  induction fuel as [|fuel IH]; intros n acc B P; [lia|]. cbn [dec_loop]. cbn zeta. destruct (Z.eqb_spec (n / 10) 0) as [E|E].
  - exists [48 + n mod 10]. split; [reflexivity|]. split; [split; [discriminate|constructor; [lia|constructor]]|]. split; [unfold dec_value; cbn [fold_left]; lia|]. split; [cbn [hd]; lia|cbn [length]; lia].
  - destruct fuel as [|fuel]; [change (Z.of_nat 1) with 1 in B; lia|].
    destruct (IH (n / 10) ((48 + n mod 10) :: acc)) as (ds & E1 & (D1 & D2) & V & H & L).
    { replace (Z.of_nat (S (S fuel))) with (1 + Z.of_nat (S fuel)) in B by lia. rewrite Z.pow_add_r in B by lia. change (10 ^ 1) with 10 in B. lia. }
    { lia. }
    exists (ds ++ [48 + n mod 10]). split; [rewrite E1, <- app_assoc; reflexivity|]. split; [split; [destruct ds; discriminate|apply Forall_app; split; [exact D2|constructor; [lia|constructor]]]|].
    split; [unfold dec_value in *; rewrite fold_left_app; cbn [fold_left]; rewrite V; lia|].
    split; [|rewrite app_length; cbn [length]; lia]. intros _. destruct ds as [|d ds]; [congruence|]. apply H. lia.
Qed.
Lemma dec_spec : forall n, 0 < n < 2 ^ 31 -> is_dec (dec n) /\ dec_value (dec n) = n /\ hd 0 (dec n) <> 48 /\ zlen (dec n) <= 10.
Proof.
  intros n B. unfold dec.
  assert (M : forall f n acc, 0 <= n < 10 ^ 10 -> (10 <= f)%nat -> dec_loop f n acc = dec_loop 10 n acc).
  { assert (Q : forall f g n acc, 0 <= n < 10 ^ Z.of_nat (Nat.min f g) -> (0 < Nat.min f g)%nat -> dec_loop f n acc = dec_loop g n acc).
    { induction f as [|f IH]; intros g m acc Hm Hp; [lia|]. destruct g as [|g]; [lia|]. cbn [dec_loop]. cbn zeta. destruct (Z.eqb_spec (m / 10) 0) as [E|E]; [reflexivity|].
      destruct (Nat.eq_dec (Nat.min f g) 0) as [Z0|Z0].
      - exfalso. replace (Nat.min (S f) (S g)) with 1%nat in Hm by lia. change (Z.of_nat 1) with 1 in Hm. lia.
      - apply IH; [|lia]. replace (Z.of_nat (Nat.min (S f) (S g))) with (1 + Z.of_nat (Nat.min f g)) in Hm by lia. rewrite Z.pow_add_r in Hm by lia. change (10 ^ 1) with 10 in Hm. lia. }
    intros f m acc Hm Hf. apply Q; [|lia]. replace (Nat.min f 10) with 10%nat by lia. exact Hm. }
  rewrite M by lia. destruct (dec_loop_spec 10 n [] ltac:(lia) ltac:(lia)) as (ds & E & D & V & H & L). rewrite app_nil_r in E. rewrite E.
  split; [exact D|]. split; [exact V|]. split; [apply H; lia|unfold zlen; lia].
Qed.

Lemma dec_nonul : forall ds, Forall (fun c => 48 <= c <= 57) ds -> forall x, x < 48 -> ~ In x ds.
Proof. intros ds F x X I. rewrite Forall_forall in F. specialize (F x I). lia. Qed.

(* The name that results *)
Definition with_id (h : list Z) (hostid : Z) : list Z :=
  if 1 <? hostid then firstn (Z.to_nat (Z.min (zlen h) (254 - zlen (45 :: dec hostid)))) h ++ 45 :: dec hostid else firstn 254 h.

Lemma firstn_len_le : forall n (l : list Z), (n <= length l)%nat -> length (firstn n l) = n.
Proof. intros n l H. rewrite firstn_length. lia. Qed.

Lemma hostname_ok : forall buf hostnm h hostid, zlen buf = 255 -> holds_string hostnm h -> hostid < 2 ^ 31 ->
  exists buf', conf_hostname buf hostnm hostid = Ok buf' /\ zlen buf' = 255 /\ holds_string buf' (with_id h hostid).
Proof.
  intros buf hostnm h hostid L H B. unfold conf_hostname, HOSTNAME.
  destruct (strlcpy_copies buf hostnm h 255 H ltac:(lia)) as (b & E & Lb & _ & K). rewrite E. cbn [bind]. clear E.
  destruct (K ltac:(lia)) as (t & Ht & Et & _). clear K. change (Z.to_nat (255 - 1)) with 254%nat in Et.
  unfold add_hostid, with_id. destruct (Z.ltb_spec 1 hostid) as [P|P].
  2:{ exists b. split; [reflexivity|]. split; [lia|]. rewrite <- Et. exact Ht. }
  cbn zeta. rewrite (strlen_ok b t Ht). cbn [bind]. unfold HOSTNAME.
  destruct (dec_spec hostid ltac:(lia)) as ((D1 & D2) & V & Hd & Ld).
  set (ds := dec hostid) in *. rewrite zlen_cons.
  assert (D0 : 1 <= zlen ds) by (destruct ds; [congruence|rewrite zlen_cons; pose proof (zlen_nonneg _ ds); lia]).
  assert (Lt : zlen t = Z.min 254 (zlen h)) by (rewrite Et; unfold zlen; rewrite firstn_length; lia).
  set (hl := if 255 <=? zlen t + 1 - 1 + (1 + zlen ds + 1) then 255 - (1 + zlen ds + 1) else zlen t + 1 - 1).
  assert (Hl : hl = Z.min (zlen h) (254 - (1 + zlen ds))).
  { unfold hl. destruct (Z.leb_spec 255 (zlen t + 1 - 1 + (1 + zlen ds + 1))); lia. }
  assert (S15 : firstn 15 (45 :: ds) = 45 :: ds) by (apply firstn_all2; cbn [length]; unfold zlen in Ld; lia).
  rewrite S15. clearbody hl.
  assert (Hh : 0 <= zlen h) by apply zlen_nonneg.
  assert (HS : holds_string ((45 :: ds) ++ [0]) (45 :: ds)).
  { split; [|exists []; reflexivity]. intros [K|K]; [discriminate K|]. exact (dec_nonul ds D2 0 ltac:(lia) K). }
  destruct (strlcpy_copies (skipn (Z.to_nat hl) b) ((45 :: ds) ++ [0]) (45 :: ds) (255 - hl) HS) as (d & E & Lz & _ & K).
  { unfold zlen in *. rewrite skipn_length. lia. }
  rewrite E. cbn [bind]. eexists. split; [reflexivity|].
  assert (Zf : zlen (firstn (Z.to_nat hl) b) = hl) by (unfold zlen; rewrite firstn_length; unfold zlen in *; lia).
  split; [rewrite zlen_app, Zf, Lz; unfold zlen in *; rewrite skipn_length; lia|].
  destruct (K ltac:(lia)) as (u & (U1 & r & U2) & U3 & U4). rewrite zlen_cons in U4.
  assert (Eu : u = 45 :: ds) by (apply U4; lia). clear U3 U4.
  assert (Ef : firstn (Z.to_nat hl) b = firstn (Z.to_nat hl) h).
  { destruct Ht as (_ & rest & ->). rewrite firstn_app. replace (Z.to_nat hl - length t)%nat with 0%nat by (unfold zlen in *; lia).
    cbn [firstn]. rewrite app_nil_r, Et, firstn_firstn. f_equal. unfold zlen in *. lia. }
  rewrite <- Hl, Ef. split.
  - intros I. apply in_app_or in I as [I|I].
    + apply (proj1 H). rewrite <- (firstn_skipn (Z.to_nat hl) h). apply in_or_app. left. exact I.
    + rewrite <- Eu in I. exact (U1 I).
  - exists r. rewrite U2, Eu, <- app_assoc. reflexivity.
Qed.

Lemma hostname_form : forall buf hostnm h hostid, zlen buf = 255 -> holds_string hostnm h -> hostid < 2 ^ 31 ->
  exists buf' n, conf_hostname buf hostnm hostid = Ok buf' /\ zlen buf' = 255 /\ holds_string buf' n /\
  (hostid <= 1 -> n = firstn 254 h) /\
  (1 < hostid -> exists ds, n = firstn (Z.to_nat (254 - zlen (45 :: ds))) h ++ 45 :: ds /\ is_dec ds /\ dec_value ds = hostid /\ hd 0 ds <> 48).
Proof.
  intros buf hostnm h hostid L H B. destruct (hostname_ok buf hostnm h hostid L H B) as (b & E & Lb & Hb). exists b, (with_id h hostid).
  split; [exact E|]. split; [exact Lb|]. split; [exact Hb|]. unfold with_id. split; intros P.
  - replace (1 <? hostid) with false by lia. reflexivity.
  - replace (1 <? hostid) with true by lia. destruct (dec_spec hostid ltac:(lia)) as (D & V & Hd & Ld). exists (dec hostid). split; [|split; [exact D|split; [exact V|exact Hd]]].
    f_equal. destruct (Z.min_spec (zlen h) (254 - zlen (45 :: dec hostid))) as [[A ->]|[A ->]]; [|reflexivity].
    rewrite !firstn_all2; [reflexivity| |]; unfold zlen in *; lia.
Qed.

(* Different counters give different names *)
Lemma split_last : forall a b p q : list Z, ~ In 45 p -> ~ In 45 q -> a ++ 45 :: p = b ++ 45 :: q -> p = q.
Proof.
  induction a as [|x a IH]; intros b p q Np Nq E; destruct b as [|y b]; cbn [app] in E; inversion E; subst.
  - reflexivity.
  - exfalso. apply Np. apply in_or_app. right. left. reflexivity.
  - exfalso. apply Nq. apply in_or_app. right. left. reflexivity.
  - eapply IH; eassumption.
Qed.
Lemma with_id_differs : forall h i j, 1 < i < 2 ^ 31 -> 1 < j < 2 ^ 31 -> i <> j -> with_id h i <> with_id h j.
Proof.
  intros h i j Bi Bj D E. unfold with_id in E. replace (1 <? i) with true in E by lia. replace (1 <? j) with true in E by lia.
  destruct (dec_spec i ltac:(lia)) as ((_ & Fi) & Vi & _ & _). destruct (dec_spec j ltac:(lia)) as ((_ & Fj) & Vj & _ & _).
  apply split_last in E; [congruence|apply (dec_nonul _ Fi); lia|apply (dec_nonul _ Fj); lia].
Qed.
Lemma with_id_first : forall h j, 1 < j < 2 ^ 31 -> zlen h <= 243 -> with_id h j <> firstn 254 h.
Proof.
  intros h j Bj L E. unfold with_id in E. replace (1 <? j) with true in E by lia. destruct (dec_spec j ltac:(lia)) as ((D & Fj) & Vj & _ & Lj).
  assert (length (firstn 254 h) = length h) by (rewrite firstn_length; unfold zlen in L; lia).
  rewrite Z.min_l in E by (rewrite zlen_cons; lia). apply (f_equal (@length Z)) in E. rewrite app_length, H in E. cbn [length] in E.
  rewrite firstn_len_le in E by (unfold zlen; lia). unfold zlen in E. lia.
Qed.
Lemma string_unique : forall buf a b, holds_string buf a -> holds_string buf b -> a = b.
Proof. intros buf a b (N & r & E) (M & q & F). rewrite <- (cstr_app a r N), <- E, F. apply cstr_app. exact M. Qed.
Lemma hostname_differs : forall buf hostnm h i j bi bj ni nj, zlen buf = 255 -> holds_string hostnm h -> 1 <= i < 2 ^ 31 -> 1 <= j < 2 ^ 31 -> i <> j -> zlen h <= 243 ->
  conf_hostname buf hostnm i = Ok bi -> conf_hostname buf hostnm j = Ok bj -> holds_string bi ni -> holds_string bj nj -> ni <> nj.
Proof.
  intros buf hostnm h i j bi bj ni nj L H Bi Bj D Lh Ei Ej Hi Hj.
  destruct (hostname_ok buf hostnm h i L H ltac:(lia)) as (b1 & E1 & _ & H1). rewrite Ei in E1. inversion E1; subst b1. rewrite (string_unique _ _ _ Hi H1).
  destruct (hostname_ok buf hostnm h j L H ltac:(lia)) as (b2 & E2 & _ & H2). rewrite Ej in E2. inversion E2; subst b2. rewrite (string_unique _ _ _ Hj H2).
  destruct (Z.eq_dec i 1) as [->|Di].
  - intros E. apply (with_id_first h j); [lia|exact Lh|]. symmetry. exact E.
  - destruct (Z.eq_dec j 1) as [->|Dj].
    + apply (with_id_first h i); [lia|exact Lh].
    + apply with_id_differs; lia.
Qed.
