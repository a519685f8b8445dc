(* TXT encoding and decoding: C14, C15, C16. *)
From Verif Require Import Base Lemmas SpecDns SpecMap SpecTxt Hash HashProofs Xht XhtProofs SdTxt.

(* ------------------------------------------------------------------ *)
(* Tables as maps *)

Lemma fm_put_ext : forall m m' k v, (forall x, m x = m' x) -> forall x, fm_put m k v x = fm_put m' k v x.
Proof. intros m m' k v H x. unfold fm_put. destruct (list_eq_dec Z.eq_dec x k); auto. Qed.

Lemma put_attr_ext : forall m m' s, (forall x, m x = m' x) -> forall x, put_attr m s x = put_attr m' s x.
Proof. intros m m' s H x. unfold put_attr. destruct (attr_key s) as [|c k]; [apply H|]. apply fm_put_ext. exact H. Qed.

Lemma fold_attr_ext : forall strs m m', (forall x, m x = m' x) -> forall x, fold_left put_attr strs m x = fold_left put_attr strs m' x.
Proof. induction strs as [|s strs IH]; intros m m' H x; cbn [fold_left]; [apply H|]. apply IH. apply put_attr_ext. exact H. Qed.

(* ------------------------------------------------------------------ *)
(* Strings *)

Lemma cstr_until : forall l, cstr l = until 0 l.
Proof. induction l as [|x l IH]; [reflexivity|]. cbn [cstr until]. destruct (Z.eqb_spec x 0); destruct (Z.eq_dec x 0); try contradiction; [reflexivity|congruence]. Qed.

Lemma split_eq_spec : forall s, split_eq s = (until 61 s, after 61 s).
Proof.
  induction s as [|x s IH]; [reflexivity|]. cbn [split_eq until after]. destruct (Z.eqb_spec x 61); destruct (Z.eq_dec x 61); try contradiction; [reflexivity|].
  rewrite IH. reflexivity.
Qed.

Lemma until_not_in : forall c l, ~ In c (until c l).
Proof. induction l as [|x l IH]; cbn [until]; [auto|]. destruct (Z.eq_dec x c) as [E|E]; [auto|]. intros [H|H]; [congruence|auto]. Qed.

Lemma until_id : forall c l, ~ In c l -> until c l = l.
Proof. induction l as [|x l IH]; intros H; cbn [until]; [reflexivity|]. destruct (Z.eq_dec x c) as [E|E]; [exfalso; apply H; left; exact E|]. rewrite IH; [reflexivity|]. intros H1. apply H. right. exact H1. Qed.

Lemma until_sub : forall c l x, In x (until c l) -> In x l.
Proof. induction l as [|y l IH]; intros x H; cbn [until] in H; [destruct H|]. destruct (Z.eq_dec y c); [destruct H|]. destruct H as [H|H]; [left; exact H|right; apply IH; exact H]. Qed.

Lemma after_sub : forall c l x, In x (after c l) -> In x l.
Proof. induction l as [|y l IH]; intros x H; cbn [after] in H; [destruct H|]. destruct (Z.eq_dec y c); [right; exact H|right; apply IH; exact H]. Qed.

Lemma cstr_id : forall l, ~ In 0 l -> cstr l = l.
Proof. intros l H. rewrite cstr_until. apply until_id. exact H. Qed.

Lemma store_attr : forall h s, xht_ok h ->
  let k := attr_key s in let v := attr_val s in
  let h' := xht_store h k (length k) (Some v) (length v) in
  xht_ok h' /\ forall x, xht_get h' x = put_attr (xht_get h) s x.
Proof.
  intros h s Hok k v h'. destruct (do_ok h (XStore k (length k) (Some v) (length v)) Hok) as (H1 & _ & H2). cbn [xht_do] in H1, H2.
  split; [exact H1|]. intros x. unfold h'. rewrite H2. unfold put_attr. fold k. fold v.
  destruct k as [|c k'] eqn:Ek; [reflexivity|]. cbn [length]. rewrite !firstn_all. replace (firstn (S (length k')) (c :: k')) with (c :: k') by (symmetry; apply (firstn_all (c :: k'))).
  assert (Hn0 : cstr (c :: k') = c :: k').
  { apply cstr_id. rewrite <- Ek. unfold k, attr_key. intros H. apply until_sub in H. exact (until_not_in 0 s H). }
  rewrite Hn0. reflexivity.
Qed.

(* ------------------------------------------------------------------ *)
(* Decoding *)

Lemma skipn_zlen_app : forall (A : Type) (a b : list A), skipn (Z.to_nat (zlen a)) (a ++ b) = b.
Proof. intros. unfold zlen. rewrite Nat2Z.id. rewrite skipn_app, skipn_all, Nat.sub_diag. reflexivity. Qed.

Lemma firstn_zlen_app : forall (A : Type) (a b : list A), firstn (Z.to_nat (zlen a)) (a ++ b) = a.
Proof. intros. unfold zlen. rewrite Nat2Z.id. rewrite firstn_app, firstn_all, Nat.sub_diag. cbn [firstn]. apply app_nil_r. Qed.

Lemma loop_spec : forall fuel pre l rest h, (length l < fuel)%nat -> bytes l -> xht_ok h ->
  exists strs h', strings_of l strs /\ txt2sd_loop fuel (pre ++ l ++ rest) (zlen pre) (zlen l) h = Ok h' /\
    xht_ok h' /\ forall x, xht_get h' x = fold_left put_attr strs (xht_get h) x.
Proof.
  induction fuel as [|fuel IH]; intros pre l rest h Hf Hby Hok; [lia|].
  cbn [txt2sd_loop]. destruct l as [|c l].
  - exists [], h. split; [constructor|]. cbn. auto.
  - rewrite zlen_cons. pose proof (zlen_nonneg _ l) as Hl. destruct (Z.leb_spec (1 + zlen l) 0); [lia|].
    unfold rd8. rewrite !zlen_app, !zlen_cons. pose proof (zlen_nonneg _ pre). pose proof (zlen_nonneg _ rest).
    destruct (Z.leb_spec 0 (zlen pre)); [|lia]. destruct (Z.ltb_spec (zlen pre) (zlen pre + (1 + zlen l + zlen rest))); [|lia].
    cbn [andb bind]. replace (zget (pre ++ (c :: l) ++ rest) (zlen pre)) with c by (rewrite zget_app_r by lia; rewrite Z.sub_diag; reflexivity).
    assert (Hc : is_byte c) by (inversion Hby; assumption). assert (Hbl : bytes l) by (inversion Hby; assumption).
    unfold is_byte in Hc.
    destruct (Z.ltb_spec c (1 + zlen l)) as [Hlt|Hge].
    2: { exists [], h. split; [constructor; unfold len; unfold zlen in Hge; lia|]. auto. }
    destruct (Z.eqb_spec c 0) as [->|Hc0].
    1: { exists [], h. split; [constructor|]. auto. }
    unfold rdblk. destruct (Z.leb_spec 0 (zlen pre + 1)); [|lia]. rewrite !zlen_app, !zlen_cons.
    destruct (Z.leb_spec (zlen pre + 1 + c) (zlen pre + (1 + zlen l + zlen rest))); [|lia]. cbn [andb bind].
    destruct (Z.leb_spec 256 c); [lia|].
    assert (Es : exists s r, l = s ++ r /\ zlen s = c).
    { exists (firstn (Z.to_nat c) l), (skipn (Z.to_nat c) l). split; [symmetry; apply firstn_skipn|]. unfold zlen. rewrite firstn_length. unfold zlen in *. lia. }
    destruct Es as (s & r & -> & Es). subst c.
    assert (Emem : pre ++ (zlen s :: s ++ r) ++ rest = (pre ++ zlen s :: nil) ++ s ++ (r ++ rest)).
    { rewrite <- !app_assoc. cbn [app]. rewrite <- app_assoc. reflexivity. }
    assert (Eblk : firstn (Z.to_nat (zlen s)) (skipn (Z.to_nat (zlen pre + 1)) (pre ++ (zlen s :: s ++ r) ++ rest)) = s).
    { rewrite Emem. replace (zlen pre + 1) with (zlen (pre ++ [zlen s])) by (rewrite zlen_app, zlen_cons, zlen_nil; lia).
      rewrite skipn_zlen_app, firstn_zlen_app. reflexivity. }
    rewrite Eblk. clear Eblk. rewrite cstr_until, split_eq_spec. change (until 61 (until 0 s)) with (attr_key s). change (after 61 (until 0 s)) with (attr_val s).
    destruct (store_attr h s Hok) as [Hok' Hget]. set (h1 := xht_store h _ _ _ _) in *.
    rewrite zlen_app in *. replace (1 + (zlen s + zlen r) - (zlen s + 1)) with (zlen r) by lia.
    apply bytes_app in Hbl. destruct Hbl as [Hbs Hbr].
    assert (Emem2 : pre ++ (zlen s :: s ++ r) ++ rest = (pre ++ zlen s :: s) ++ r ++ rest).
    { rewrite <- !app_assoc. cbn [app]. rewrite <- app_assoc. reflexivity. }
    rewrite Emem2. replace (zlen pre + zlen s + 1) with (zlen (pre ++ zlen s :: s)) by (rewrite zlen_app, zlen_cons; lia).
    cbn [length] in Hf. rewrite app_length in Hf.
    destruct (IH (pre ++ zlen s :: s) r rest h1) as (strs & h' & I1 & I2 & I3 & I4); [lia|exact Hbr|exact Hok'|].
    exists (s :: strs), h'. split; [|split; [exact I2|split; [exact I3|]]].
    + change (zlen s) with (len s). constructor; [|exact I1]. intros ->. apply Hc0. reflexivity.
    + intros x. rewrite I4. cbn [fold_left]. apply fold_attr_ext. exact Hget.
Qed.

Lemma new_get : forall p k, xht_get (xht_new p) k = None.
Proof.
  intros p k. unfold xht_get, xht_new. cbn [x_zen]. unfold index. cbn [x_prime].
  assert (H : forall n i, lookup (nth i (repeat [empty_node] n) []) k = None).
  { induction n as [|n IH]; intros [|i]; cbn [repeat nth]; try reflexivity. apply IH. }
  apply H.
Qed.

Lemma txt2sd_spec : forall l rest, bytes l ->
  exists strs h, strings_of l strs /\ txt2sd (l ++ rest) (zlen l) = Ok h /\ forall x, get_opt h x = attrs strs x.
Proof.
  intros l rest Hby. unfold txt2sd. destruct l as [|c l].
  - exists [], None. split; [constructor|]. cbn. auto.
  - destruct (Z.eqb_spec (zlen (c :: l)) 0) as [E|_]; [rewrite zlen_cons in E; pose proof (zlen_nonneg _ l); lia|].
    unfold rd8. rewrite zlen_app, zlen_cons. pose proof (zlen_nonneg _ l). pose proof (zlen_nonneg _ rest).
    destruct (Z.leb_spec 0 0); [|lia]. destruct (Z.ltb_spec 0 (1 + zlen l + zlen rest)); [|lia]. cbn [andb bind app]. rewrite zget_0.
    destruct (Z.eqb_spec c 0) as [->|Hc].
    + exists [], None. split; [constructor|]. cbn. auto.
    + destruct (loop_spec (S (Z.to_nat (1 + zlen l))) [] (c :: l) rest (xht_new 23)) as (strs & h & T1 & T2 & T3 & T4).
      * cbn [length]. unfold zlen. lia.
      * exact Hby.
      * apply new_ok. lia.
      * rewrite zlen_nil in T2. cbn [app] in T2. rewrite zlen_cons in T2. rewrite T2. cbn [bind].
        exists strs, (Some h). split; [exact T1|]. split; [reflexivity|]. intros x. cbn [get_opt]. rewrite T4. unfold attrs. apply fold_attr_ext. intros y. apply new_get.
Qed.

(* The strings are determined by the data. *)
Lemma strings_of_det : forall l a, bytes l -> strings_of l a -> forall b, strings_of l b -> a = b.
Proof.
  assert (G : forall n l a, (length l <= n)%nat -> bytes l -> strings_of l a -> forall b, strings_of l b -> a = b).
  { induction n as [|n IH]; intros l a Hn Hby Ha b Hb.
    - destruct l; [|cbn in Hn; lia]. inversion Ha; inversion Hb; subst; auto.
    - inversion Ha; subst; inversion Hb; subst; auto.
      + lazymatch goal with H : len _ = 0 |- _ => idtac | H : len ?s < 0 |- _ => unfold len in H; lia | _ => idtac end.
        destruct s; [contradiction|]. unfold len in *. cbn [length] in *. lia.
      + unfold len in *. rewrite app_length in *. lia.
      + destruct s; [contradiction|]. unfold len in *. cbn [length] in *. lia.
      + unfold len in *. rewrite app_length in *. lia.
      + match goal with H : len _ = len _ |- _ => rename H into E1 end. match goal with H : _ ++ _ = _ ++ _ |- _ => rename H into E2 end.
        assert (s0 = s /\ r0 = r) as [-> ->].
        { assert (E3 : length s0 = length s) by (unfold len in E1; lia). clear - E2 E3. revert s E2 E3. induction s0 as [|x s0 IHs]; intros [|y s] E2 E3; cbn in *; try lia; auto.
          injection E2 as -> E2. destruct (IHs s E2 ltac:(lia)) as [-> ->]. auto. }
        f_equal. apply (IH r); auto.
        * cbn [length] in Hn. rewrite app_length in Hn. lia.
        * apply Forall_inv_tail in Hby. apply bytes_app in Hby. tauto. }
  intros l a Hby Ha b Hb. apply (G (length l) l a); auto.
Qed.

(* ------------------------------------------------------------------ *)
(* Encoding *)

Definition entry (kv : list Z * value) : list Z := attr_string (fst kv) (cstr (snd kv)).

Lemma sd2txt_len_entry : forall k v, sd2txt_len k v = zlen (entry (k, v)).
Proof.
  intros k v. unfold sd2txt_len, entry, attr_string. cbn [fst snd]. destruct (cstr v) as [|c r] eqn:E; [reflexivity|].
  rewrite zlen_app. rewrite !zlen_cons. lia.
Qed.

Definition entry_data (kv : list Z * value) : list Z := zlen (entry kv) mod 256 :: entry kv.

Lemma count_data : forall l, sd2txt_count l = zlen (flat_map entry_data l).
Proof.
  assert (G : forall l n, fold_left (fun n kv => n + (sd2txt_len (fst kv) (snd kv) + 1)) l n = n + zlen (flat_map entry_data l)).
  { induction l as [|[k v] l IH]; intros n; cbn [fold_left flat_map]; [rewrite zlen_nil; lia|]. rewrite IH. cbn [fst snd]. rewrite sd2txt_len_entry.
    rewrite zlen_app. unfold entry_data at 2. rewrite zlen_cons. lia. }
  intros l. unfold sd2txt_count. rewrite G. lia.
Qed.

(* The unwritten part of the buffer. *)
Definition blank (n : Z) : list Z := repeat (-1) (Z.to_nat n).

Lemma zlen_blank : forall n, 0 <= n -> zlen (blank n) = n.
Proof. intros n H. unfold blank, zlen. rewrite repeat_length. lia. Qed.

Lemma skipn_blank : forall n m, skipn (Z.to_nat m) (blank n) = repeat (-1) (Z.to_nat n - Z.to_nat m)%nat.
Proof.
  intros n m. unfold blank. remember (Z.to_nat n) as a. remember (Z.to_nat m) as b. clear. revert a. induction b as [|b IH]; intros [|a]; cbn [skipn repeat Nat.sub]; auto.
Qed.

Lemma put_spec : forall done n d, 0 <= n -> zlen d <= n ->
  put (done ++ blank n) (zlen done) d = Ok ((done ++ d) ++ blank (n - zlen d), zlen (done ++ d)).
Proof.
  intros done n d Hn Hd. unfold put. rewrite zlen_app, zlen_blank by exact Hn. pose proof (zlen_nonneg _ done). pose proof (zlen_nonneg _ d).
  destruct (Z.leb_spec 0 (zlen done)); [|lia]. destruct (Z.leb_spec (zlen done + zlen d) (zlen done + n)); [|lia]. cbn [andb].
  rewrite firstn_zlen_app. replace (Z.to_nat (zlen done + zlen d)) with (length done + Z.to_nat (zlen d))%nat by (unfold zlen; lia).
  assert (Esk : skipn (length done + Z.to_nat (zlen d)) (done ++ blank n) = blank (n - zlen d)).
  { rewrite skipn_app. rewrite skipn_all2 by lia. replace (length done + Z.to_nat (zlen d) - length done)%nat with (Z.to_nat (zlen d)) by lia.
    rewrite skipn_blank. unfold blank. replace (Z.to_nat (n - zlen d)) with (Z.to_nat n - Z.to_nat (zlen d))%nat by lia. reflexivity. }
  rewrite Esk. rewrite zlen_app, <- app_assoc. reflexivity.
Qed.

Lemma write_spec : forall done n k v, zlen (entry_data (k, v)) <= n ->
  sd2txt_write (done ++ blank n) (zlen done) k v =
  Ok ((done ++ entry_data (k, v)) ++ blank (n - zlen (entry_data (k, v))), zlen (done ++ entry_data (k, v))).
Proof.
  intros done n k v Hn. unfold sd2txt_write. rewrite sd2txt_len_entry. unfold entry_data in *. rewrite zlen_cons in *.
  set (b := zlen (entry (k, v)) mod 256). pose proof (zlen_nonneg _ (entry (k, v))) as H0. change (zlen (entry (k, v)) mod 256) with b. clearbody b.
  rewrite put_spec by (rewrite ?zlen_cons, ?zlen_nil; lia). cbn [bind]. rewrite zlen_cons, zlen_nil.
  unfold entry, attr_string in *. cbn [fst snd] in *. destruct (cstr v) as [|c r].
  - rewrite put_spec by lia. cbn [bind]. repeat (rewrite <- app_assoc; cbn [app]). match goal with |- Ok (_ ++ _ :: _ ++ blank ?x, _) = Ok (_ ++ _ :: _ ++ blank ?y, _) => replace x with y by lia end. reflexivity.
  - rewrite (zlen_app _ k), !zlen_cons in *. pose proof (zlen_nonneg _ k). pose proof (zlen_nonneg _ r).
    rewrite put_spec by lia. cbn [bind]. rewrite put_spec by (rewrite ?zlen_cons, ?zlen_nil; lia). cbn [bind]. rewrite zlen_cons, zlen_nil.
    rewrite put_spec by (rewrite ?zlen_cons; lia). rewrite zlen_cons.
    repeat (rewrite <- app_assoc; cbn [app]). replace (n - (1 + 0) - zlen k - (1 + 0) - (1 + zlen r)) with (n - (1 + (zlen k + (1 + (1 + zlen r))))) by lia. reflexivity.
Qed.

Lemma writes_spec : forall l done n, zlen (flat_map entry_data l) = n ->
  sd2txt_writes (done ++ blank n) (zlen done) l = Ok (done ++ flat_map entry_data l, zlen (done ++ flat_map entry_data l)).
Proof.
  induction l as [|[k v] l IH]; intros done n Hn; cbn [sd2txt_writes flat_map] in *.
  - rewrite zlen_nil in Hn. subst n. unfold blank. cbn [Z.to_nat repeat]. rewrite app_nil_r. reflexivity.
  - rewrite zlen_app in Hn. pose proof (zlen_nonneg _ (flat_map entry_data l)). rewrite write_spec by lia. cbn [bind].
    rewrite IH by lia. rewrite <- !app_assoc. reflexivity.
Qed.

Lemma sd2txt_spec : forall h, sd2txt h = Ok (match xht_walk h with [] => [0] | _ => flat_map entry_data (xht_walk h) end).
Proof.
  intros h. unfold sd2txt. rewrite count_data. destruct (xht_walk h) as [|kv l]; [reflexivity|].
  destruct (Z.eqb_spec (zlen (flat_map entry_data (kv :: l))) 0) as [E|_].
  { cbn [flat_map] in E. rewrite zlen_app in E. unfold entry_data at 1 in E. rewrite zlen_cons in E. pose proof (zlen_nonneg _ (entry kv)). pose proof (zlen_nonneg _ (flat_map entry_data l)). lia. }
  pose proof (writes_spec (kv :: l) [] _ eq_refl) as H. cbn [app] in H. rewrite zlen_nil in H. unfold blank in H. rewrite H. reflexivity.
Qed.

Lemma entry_data_small : forall l, Forall (fun kv => zlen (entry kv) <= 255) l -> flat_map entry_data l = txt_data (map entry l).
Proof.
  induction l as [|kv l IH]; intros H; [reflexivity|]. inversion H; subst. cbn [flat_map map]. unfold txt_data. cbn [flat_map]. fold (txt_data (map entry l)).
  rewrite IH by assumption. unfold entry_data. pose proof (zlen_nonneg _ (entry kv)). rewrite Z.mod_small by lia. reflexivity.
Qed.

(* ------------------------------------------------------------------ *)
(* Round trip *)

Lemma strings_of_data : forall strs, Forall (fun s => s <> []) strs -> strings_of (txt_data strs) strs.
Proof.
  induction strs as [|s strs IH]; intros H; [constructor|]. inversion H; subst. unfold txt_data. cbn [flat_map]. fold (txt_data strs).
  cbn [app]. constructor; [assumption|]. apply IH. assumption.
Qed.

Lemma until_app : forall c a b, ~ In c a -> until c (a ++ c :: b) = a.
Proof. induction a as [|x a IH]; intros b H; cbn [app until]; [destruct (Z.eq_dec c c); congruence|]. destruct (Z.eq_dec x c) as [E|E]; [exfalso; apply H; left; exact E|]. rewrite IH; [reflexivity|]. intros H1. apply H. right. exact H1. Qed.
Lemma after_app : forall c a b, ~ In c a -> after c (a ++ c :: b) = b.
Proof. induction a as [|x a IH]; intros b H; cbn [app after]; [destruct (Z.eq_dec c c); congruence|]. destruct (Z.eq_dec x c) as [E|E]; [exfalso; apply H; left; exact E|]. apply IH. intros H1. apply H. right. exact H1. Qed.
Lemma after_none : forall c a, ~ In c a -> after c a = [].
Proof. induction a as [|x a IH]; intros H; cbn [after]; [reflexivity|]. destruct (Z.eq_dec x c) as [E|E]; [exfalso; apply H; left; exact E|]. apply IH. intros H1. apply H. right. exact H1. Qed.

Lemma attr_of_string : forall k v, ~ In 0 k -> ~ In 61 k -> ~ In 0 v ->
  attr_key (attr_string k v) = k /\ attr_val (attr_string k v) = v.
Proof.
  intros k v H1 H2 H3. unfold attr_key, attr_val, attr_string. destruct v as [|c v].
  - rewrite (until_id 0) by exact H1. rewrite until_id by exact H2. split; [reflexivity|]. apply after_none. exact H2.
  - rewrite (until_id 0) by (rewrite in_app_iff; intros [H|[H|H]]; [auto|discriminate|auto]). split; [apply until_app|apply after_app]; exact H2.
Qed.

(* What a table must contain to survive being written as TXT data. *)
Definition txt_pair (k v : list Z) : Prop :=
  k <> [] /\ bytes k /\ bytes v /\ ~ In 0 k /\ ~ In 61 k /\ ~ In 0 v /\ zlen (attr_string k v) <= 255.

Lemma attrs_walk : forall l m, NoDup (map fst l) -> Forall (fun kv => txt_pair (fst kv) (snd kv)) l ->
  forall k, fold_left put_attr (map entry l) m k = match find (fun kv => bytes_eqb k (fst kv)) l with Some kv => Some (snd kv) | None => m k end.
Proof.
  induction l as [|[k0 v0] l IH]; intros m Hnd Hf k; cbn [map fold_left find]; [reflexivity|].
  cbn [map fst] in Hnd. inversion Hnd; subst. inversion Hf; subst. cbn [fst snd] in *. destruct H3 as (K1 & _ & _ & K2 & K3 & K4 & _).
  rewrite IH by assumption.
  assert (Eput : forall x, put_attr m (entry (k0, v0)) x = fm_put m k0 (Some v0) x).
  { intros x. unfold put_attr, entry. cbn [fst snd]. rewrite (cstr_id v0 K4). destruct (attr_of_string k0 v0 K2 K3 K4) as [-> ->]. destruct k0; [contradiction|reflexivity]. }
  destruct (bytes_eqb k k0) eqn:E.
  - apply bytes_eqb_eq in E. subst k.
    assert (En : find (fun kv => bytes_eqb k0 (fst kv)) l = None).
    { destruct (find _ l) as [[k1 v1]|] eqn:Ef; [|reflexivity]. apply find_some in Ef. destruct Ef as [F1 F2]. cbn [fst] in F2. apply bytes_eqb_eq in F2. subst k1.
      exfalso. apply H1. apply in_map_iff. exists (k0, v1). auto. }
    rewrite En, Eput. unfold fm_put. destruct (list_eq_dec Z.eq_dec k0 k0); [reflexivity|contradiction].
  - destruct (find _ l) as [kv|]; [reflexivity|]. rewrite Eput. unfold fm_put. destruct (list_eq_dec Z.eq_dec k k0) as [->|]; [rewrite bytes_eqb_refl in E; discriminate|reflexivity].
Qed.

Lemma roundtrip : forall h, xht_ok h -> (forall k v, xht_get h k = Some v -> txt_pair k v) ->
  exists d h', sd2txt h = Ok d /\ txt2sd d (zlen d) = Ok h' /\ forall k, get_opt h' k = xht_get h k.
Proof.
  intros h Hok Hp. rewrite sd2txt_spec.
  pose proof (walk_nodup h Hok) as Hnd. pose proof (walk_get h) as Hwg.
  assert (Hf : Forall (fun kv => txt_pair (fst kv) (snd kv)) (xht_walk h)).
  { apply Forall_forall. intros [k v] Hin. apply Hp. apply Hwg; assumption. }
  set (l := xht_walk h) in *.
  assert (Hget : forall k, match find (fun kv => bytes_eqb k (fst kv)) l with Some kv => Some (snd kv) | None => None end = xht_get h k).
  { intros k. destruct (find (fun kv => bytes_eqb k (fst kv)) l) as [[k1 v1]|] eqn:Ef.
    - apply find_some in Ef. destruct Ef as [F1 F2]. cbn [fst snd] in *. apply bytes_eqb_eq in F2. subst k1. symmetry. apply Hwg; assumption.
    - destruct (xht_get h k) as [v|] eqn:Eg; [|reflexivity]. apply Hwg in Eg; [|exact Hok]. apply (find_none _ _ Ef) in Eg. cbn [fst] in Eg. rewrite bytes_eqb_refl in Eg. discriminate. }
  destruct l as [|kv l'] eqn:El.
  - exists [0], None. split; [reflexivity|]. split; [reflexivity|]. intros k. rewrite <- Hget. reflexivity.
  - rewrite <- El in *. clear El kv l'.
    assert (Hsm : Forall (fun kv => zlen (entry kv) <= 255) l).
    { eapply Forall_impl; [|exact Hf]. intros [k v] (_ & _ & _ & _ & _ & K4 & K5). unfold entry. cbn [fst snd] in *. rewrite (cstr_id v K4). exact K5. }
    rewrite entry_data_small by exact Hsm. set (d := txt_data (map entry l)).
    assert (Hb : bytes d).
    { unfold d, txt_data. clear - Hf Hsm. induction l as [|[k v] l IH]; [constructor|]. inversion Hf; subst. inversion Hsm; subst. cbn [map flat_map]. apply bytes_app. split; [|apply IH; assumption].
      cbn [fst snd] in *. destruct H1 as (_ & B1 & B2 & _ & _ & K4 & _). constructor; [change (len (entry (k, v))) with (zlen (entry (k, v))); pose proof (zlen_nonneg _ (entry (k, v))); unfold is_byte; lia|].
      unfold entry, attr_string. cbn [fst snd]. rewrite (cstr_id v K4). destruct v as [|c v]; [exact B1|]. apply bytes_app. split; [exact B1|]. constructor; [unfold is_byte; lia|exact B2]. }
    assert (Hne : Forall (fun s => s <> []) (map entry l)).
    { apply Forall_map. eapply Forall_impl; [|exact Hf]. intros [k v] (K1 & _ & _ & _ & _ & K4 & _). unfold entry. cbn [fst snd] in *. rewrite (cstr_id v K4). unfold attr_string.
      destruct v; [exact K1|]. destruct k; discriminate. }
    destruct (txt2sd_spec d [] Hb) as (strs & h' & S1 & S2 & S3). rewrite app_nil_r in S2.
    assert (strs = map entry l) as -> by (apply (strings_of_det d); [exact Hb|exact S1|apply strings_of_data; exact Hne]).
    exists d, h'. split; [reflexivity|]. split; [exact S2|]. intros k. rewrite S3. unfold attrs. rewrite attrs_walk by assumption. apply Hget.
Qed.

(* ------------------------------------------------------------------ *)
(* Tables reached by operations *)
Lemma run_roundtrip : forall prime ops, 0 < prime ->
  let h := xht_run prime ops in
  (forall k v, xht_get h k = Some v -> txt_pair k v) ->
  exists d h', sd2txt h = Ok d /\ txt2sd d (zlen d) = Ok h' /\ forall k, get_opt h' k = xht_get h k.
Proof. intros prime ops Hp h Hh. apply roundtrip; [apply run_ok; exact Hp|exact Hh]. Qed.

Lemma run_encode : forall prime ops, 0 < prime ->
  let h := xht_run prime ops in
  exists d pairs, sd2txt h = Ok d /\
    NoDup (map fst pairs) /\ (forall k v, In (k, v) pairs <-> xht_get h k = Some v) /\
    (pairs = [] -> d = [0]) /\
    (pairs <> [] -> d = flat_map (fun kv => let s := attr_string (fst kv) (until 0 (snd kv)) in zlen s mod 256 :: s) pairs) /\
    (pairs <> [] -> Forall (fun kv => zlen (attr_string (fst kv) (until 0 (snd kv))) <= 255) pairs ->
       d = txt_data (map (fun kv => attr_string (fst kv) (until 0 (snd kv))) pairs)).
Proof.
  intros prime ops Hp h. destruct (run_ok prime ops Hp) as [Hok _]. fold h in Hok.
  assert (Hent : forall kv, entry kv = attr_string (fst kv) (until 0 (snd kv))) by (intros; unfold entry; rewrite cstr_until; reflexivity).
  rewrite sd2txt_spec. eexists. exists (xht_walk h). split; [reflexivity|]. split; [apply walk_nodup; exact Hok|].
  split; [intros; apply walk_get; exact Hok|]. destruct (xht_walk h) as [|kv l]; [split; [auto|split; contradiction]|].
  split; [discriminate|].
  assert (E : flat_map entry_data (kv :: l) = flat_map (fun kv => let s := attr_string (fst kv) (until 0 (snd kv)) in zlen s mod 256 :: s) (kv :: l)).
  { apply flat_map_ext. intros x. unfold entry_data. rewrite Hent. reflexivity. }
  split; [intros _; exact E|]. intros _ Hf. rewrite entry_data_small.
  - f_equal. apply map_ext. exact Hent.
  - eapply Forall_impl; [|exact Hf]. intros x Hx. rewrite Hent. exact Hx.
Qed.

Lemma roundtrip_long :
  let h := xht_run 11 [XSet [97] (Some (repeat 98 300))] in
  exists d h', sd2txt h = Ok d /\ txt2sd d (zlen d) = Ok h' /\ get_opt h' [97] <> xht_get h [97].
Proof.
  intros h. eexists. eexists. split; [vm_compute; reflexivity|]. split; [vm_compute; reflexivity|]. vm_compute. discriminate.
Qed.
