(* The hash table is a finite map (C12), xht_walk enumerates it (C13), and
   every string it allocates is freed exactly once. *)
From Coq Require Import Permutation.
From Verif Require Import Base Lemmas Hash HashProofs Xht SpecMap.

Ltac perm_count :=
  apply (Permutation_count_occ Nat.eq_dec); intro; repeat rewrite count_occ_app; cbn [count_occ];
  lia.

Definition keys (bk : list node) : list (list Z) := flat_map (fun n => match n_key n with Some k => [k] | None => [] end) bk.

Lemma keys_app : forall a b, keys (a ++ b) = keys a ++ keys b.
Proof. intros. unfold keys. apply flat_map_app. Qed.

Lemma has_key_in : forall k bk, existsb (has_key k) bk = true <-> In k (keys bk).
Proof.
  intros k bk. rewrite existsb_exists. unfold keys. rewrite in_flat_map. split.
  - intros (n & Hn & H). exists n. split; [exact Hn|]. unfold has_key in H. destruct (n_key n) as [k'|]; [|discriminate]. apply bytes_eqb_eq in H. left. congruence.
  - intros (n & Hn & H). exists n. split; [exact Hn|]. unfold has_key. destruct (n_key n) as [k'|]; [|destruct H]. destruct H as [->|[]]. apply bytes_eqb_refl.
Qed.

Lemma find_idx_some : forall p l j, find_idx p l = Some j ->
  exists a n b, l = a ++ n :: b /\ length a = j /\ p n = true /\ existsb p a = false.
Proof.
  induction l as [|x l IH]; intros j H; cbn [find_idx] in H; [discriminate|].
  destruct (p x) eqn:E.
  - injection H as <-. exists [], x, l. auto.
  - destruct (find_idx p l) as [j'|]; [|discriminate]. injection H as <-. destruct (IH j' eq_refl) as (a & n & b & -> & <- & Hn & Ha).
    exists (x :: a), n, b. cbn [app length existsb]. rewrite E. auto.
Qed.

Lemma find_idx_none : forall p l, find_idx p l = None -> existsb p l = false.
Proof.
  induction l as [|x l IH]; intros H; cbn [find_idx existsb] in *; [reflexivity|].
  destruct (p x); [discriminate|]. destruct (find_idx p l); [discriminate|]. apply IH. reflexivity.
Qed.

Lemma upd_split : forall (A : Type) (a : list A) n b v, upd (a ++ n :: b) (length a) v = a ++ v :: b.
Proof. intros. replace (length a) with (length a + 0)%nat by lia. rewrite upd_app_r. reflexivity. Qed.

Lemma lookup_app : forall a b k, lookup (a ++ b) k = if existsb (has_key k) a then lookup a k else lookup b k.
Proof.
  intros a b k. unfold lookup. induction a as [|x a IH]; cbn [app find existsb]; [reflexivity|].
  destruct (has_key k x); cbn [orb]; [reflexivity|exact IH].
Qed.

Lemma lookup_none : forall a k, existsb (has_key k) a = false -> lookup a k = None.
Proof.
  intros a k. unfold lookup. induction a as [|x a IH]; cbn [find existsb]; intros H; [reflexivity|].
  apply orb_false_iff in H. destruct H as [H1 H2]. rewrite H1. apply IH. exact H2.
Qed.

Definition bset (bk : list node) (key : list Z) (n : node) : list node :=
  let '(bk', j) := pick bk key in upd bk' j n.

Lemma pick_shape : forall bk key, bk <> [] -> NoDup (keys bk) ->
  exists a n b, fst (pick bk key) = a ++ n :: b /\ snd (pick bk key) = length a /\ n = nth (length a) (fst (pick bk key)) empty_node /\
    ~ In key (keys a) /\ ~ In key (keys b) /\ NoDup (keys a ++ keys b) /\
    ((bk = a ++ n :: b /\ (n_key n = Some key \/ n_val n = None)) \/ (n = empty_node /\ bk = a ++ b)).
Proof.
  intros bk key Hne Hnd. unfold pick.
  assert (Hnth : forall (a : list node) n b, n = nth (length a) (a ++ n :: b) empty_node).
  { intros. rewrite app_nth2 by lia. rewrite Nat.sub_diag. reflexivity. }
  destruct (find_idx (has_key key) bk) as [j|] eqn:E1.
  - apply find_idx_some in E1. destruct E1 as (a & n & b & -> & <- & Hn & Ha). exists a, n, b. cbn [fst snd].
    assert (Hk : n_key n = Some key) by (unfold has_key in Hn; destruct (n_key n) as [k|]; [apply bytes_eqb_eq in Hn; congruence|discriminate]).
    rewrite keys_app in Hnd. cbn [keys flat_map] in Hnd. rewrite Hk in Hnd. change (flat_map _ b) with (keys b) in Hnd. cbn [app] in Hnd.
    pose proof (NoDup_remove_1 _ _ _ Hnd) as H1. pose proof (NoDup_remove_2 _ _ _ Hnd) as H2. rewrite in_app_iff in H2.
    split; [reflexivity|]. split; [reflexivity|]. split; [apply Hnth|]. split; [tauto|]. split; [tauto|]. split; [exact H1|]. left. auto.
  - apply find_idx_none in E1.
    assert (Hnk : ~ In key (keys bk)) by (rewrite <- has_key_in, E1; discriminate).
    destruct (find_idx no_val bk) as [j|] eqn:E2.
    + apply find_idx_some in E2. destruct E2 as (a & n & b & -> & <- & Hn & Ha). exists a, n, b. cbn [fst snd].
      assert (Hv : n_val n = None) by (unfold no_val in Hn; destruct (n_val n); [discriminate|reflexivity]).
      rewrite keys_app in Hnd, Hnk. cbn [keys flat_map] in Hnd, Hnk. change (flat_map _ b) with (keys b) in Hnd, Hnk. rewrite !in_app_iff in Hnk.
      split; [reflexivity|]. split; [reflexivity|]. split; [apply Hnth|]. split; [tauto|]. split; [tauto|]. split; [|left; auto].
      destruct (n_key n) as [k|]; cbn [app] in Hnd; [|exact Hnd]. exact (NoDup_remove_1 _ _ _ Hnd).
    + destruct bk as [|hd tl]; [contradiction|]. exists [hd], empty_node, tl. cbn [fst snd app length].
      change (hd :: tl) with ([hd] ++ tl) in *. rewrite keys_app in *. rewrite in_app_iff in Hnk.
      split; [reflexivity|]. split; [reflexivity|]. split; [reflexivity|]. split; [tauto|]. split; [tauto|]. split; [exact Hnd|]. right. auto.
Qed.

Lemma bset_spec : forall bk key own val, bk <> [] -> NoDup (keys bk) ->
  let bk' := bset bk key (mknode own (Some key) val) in
  bk' <> [] /\ NoDup (keys bk') /\ (forall k, In k (keys bk') -> k = key \/ In k (keys bk)) /\
  lookup bk' key = val /\ (forall k, k <> key -> lookup bk' k = lookup bk k) /\
  (let '(b1, j) := pick bk key in
   Permutation (flat_map node_own bk' ++ node_own (nth j b1 empty_node)) (match own with Some a => [a] | None => [] end ++ flat_map node_own bk)).
Proof.
  intros bk key own val Hne Hnd bk'. destruct (pick_shape bk key Hne Hnd) as (a & n & b & E1 & E2 & En & Ha & Hb & Hnd2 & Hsh).
  unfold bset in bk'. destruct (pick bk key) as [b1 j]. cbn [fst snd] in E1, E2, En. subst b1 j. unfold bk'. clear bk'. rewrite upd_split.
  set (n' := mknode own (Some key) val). rewrite <- En. clear En.
  assert (Hk' : keys (a ++ n' :: b) = keys a ++ key :: keys b) by (rewrite keys_app; reflexivity).
  split; [destruct a; discriminate|]. split; [|split; [|split; [|split]]].
  - rewrite Hk'. rewrite <- (app_nil_r (keys a ++ key :: keys b)), <- app_assoc. apply NoDup_Add with (a := key) (l := keys a ++ keys b).
    + cbn [app]. rewrite app_nil_r. apply Add_app.
    + split; [exact Hnd2|]. rewrite in_app_iff. tauto.
  - intros k Hk. rewrite Hk' in Hk. rewrite in_app_iff in Hk. cbn [In] in Hk.
    destruct Hsh as [(-> & _)|(_ & ->)]; rewrite keys_app.
    + change (n :: b) with ([n] ++ b). rewrite keys_app, !in_app_iff. destruct Hk as [H|[H|H]]; auto.
    + rewrite in_app_iff. destruct Hk as [H|[H|H]]; auto.
  - rewrite lookup_app. replace (existsb (has_key key) a) with false by (symmetry; apply not_true_is_false; rewrite has_key_in; exact Ha).
    unfold lookup. cbn [find]. unfold has_key at 1. cbn [n_key n']. rewrite bytes_eqb_refl. reflexivity.
  - intros k Hk. rewrite lookup_app. assert (Hn' : has_key k n' = false) by (unfold has_key; cbn [n' n_key]; apply bytes_eqb_neq; exact Hk).
    change (n' :: b) with ([n'] ++ b). rewrite lookup_app. cbn [existsb]. rewrite Hn'. cbn [orb].
    destruct Hsh as [(-> & Hn)|(_ & ->)]; rewrite lookup_app; [|reflexivity].
    destruct (existsb (has_key k) a) eqn:Ea; [reflexivity|].
    change (n :: b) with ([n] ++ b). rewrite lookup_app. cbn [existsb]. rewrite orb_false_r.
    destruct (has_key k n) eqn:Ek; [|reflexivity].
    assert (Hkn : n_key n = Some k) by (unfold has_key in Ek; destruct (n_key n) as [k0|]; [apply bytes_eqb_eq in Ek; congruence|discriminate]).
    destruct Hn as [Hn|Hn]; [congruence|].
    unfold lookup at 2. cbn [find]. rewrite Ek, Hn. apply lookup_none. apply not_true_is_false. rewrite has_key_in.
    rewrite keys_app in Hnd. change (n :: b) with ([n] ++ b) in Hnd. rewrite keys_app in Hnd.
    assert (Ekn : keys [n] = [k]) by (unfold keys; cbn [flat_map]; rewrite Hkn; reflexivity). rewrite Ekn in Hnd. cbn [app] in Hnd.
    apply NoDup_remove_2 in Hnd. rewrite in_app_iff in Hnd. tauto.
  - rewrite flat_map_app. cbn [flat_map]. unfold node_own at 2. cbn [n' n_own].
    set (o := match own with Some a0 => [a0] | None => [] end).
    destruct Hsh as [(-> & _)|(-> & ->)]; rewrite flat_map_app; cbn [flat_map].
    + perm_count.
    + cbn [node_own empty_node n_own]. perm_count.
Qed.

(* ------------------------------------------------------------------ *)
(* The whole table *)

Definition xht_ok (h : xht) : Prop :=
  0 < x_prime h /\ zlen (x_zen h) = x_prime h /\
  (forall i, (i < length (x_zen h))%nat ->
     nth i (x_zen h) [] <> [] /\ NoDup (keys (nth i (x_zen h) [])) /\
     forall k, In k (keys (nth i (x_zen h) [])) -> index h k = i) /\
  Permutation (x_freed h ++ xht_free h) (seq 0 (x_next h)).

Lemma index_lt : forall h key, xht_ok h -> (index h key < length (x_zen h))%nat.
Proof.
  intros h key (Hp & Hz & _). unfold index. pose proof (bucket_index_range key (x_prime h) Hp). unfold zlen in Hz. lia.
Qed.

Lemma concat_upd : forall (A B : Type) (f : A -> list B) (l : list (list A)) i x, (i < length l)%nat ->
  exists p q, flat_map f (concat l) = p ++ flat_map f (nth i l []) ++ q /\ flat_map f (concat (upd l i x)) = p ++ flat_map f x ++ q.
Proof.
  intros A B f. induction l as [|y l IH]; intros i x Hi; cbn [length] in Hi; [lia|].
  destruct i as [|i]; cbn [concat upd nth]; rewrite !flat_map_app.
  - exists [], (flat_map f (concat l)). auto.
  - destruct (IH i x ltac:(lia)) as (p & q & H1 & H2). exists (flat_map f y ++ p), q. rewrite H1, H2, <- !app_assoc. auto.
Qed.

Lemma set1_ok : forall h key val own (nx : nat),
  0 < x_prime h -> zlen (x_zen h) = x_prime h ->
  (forall i, (i < length (x_zen h))%nat ->
     nth i (x_zen h) [] <> [] /\ NoDup (keys (nth i (x_zen h) [])) /\ forall k, In k (keys (nth i (x_zen h) [])) -> index h k = i) ->
  Permutation (match own with Some a => [a] | None => [] end ++ x_freed h ++ xht_free h) (seq 0 (x_next h)) ->
  xht_ok (xht_set1 h key val own) /\ x_prime (xht_set1 h key val own) = x_prime h /\
  (forall k, xht_get (xht_set1 h key val own) k = if list_eq_dec Z.eq_dec k key then val else xht_get h k).
Proof.
  intros h key val own nx Hp Hz Hb Hperm.
  assert (Hi : (index h key < length (x_zen h))%nat).
  { unfold index. pose proof (bucket_index_range key (x_prime h) Hp). unfold zlen in Hz. lia. }
  destruct (Hb _ Hi) as (Hne & Hnd & Hidx).
  pose proof (bset_spec (nth (index h key) (x_zen h) []) key own val Hne Hnd) as Hs. cbv zeta in Hs.
  unfold xht_set1. cbv zeta. unfold bset in Hs. set (i := index h key) in *.
  destruct (pick (nth i (x_zen h) []) key) as [b1 j] eqn:Epick. set (bk' := upd b1 j (mknode own (Some key) val)) in *.
  destruct Hs as (S1 & S2 & S3 & S4 & S5 & S6).
  set (h' := mkxht _ _ _ _).
  assert (Hix : forall k, index h' k = index h k) by reflexivity.
  split; [|split; [reflexivity|]].
  - split; [exact Hp|]. split; [cbn [h' x_zen x_prime]; rewrite zlen_upd; exact Hz|]. split.
    + cbn [h' x_zen]. rewrite upd_length. intros i' Hi'. destruct (Nat.eq_dec i i') as [<-|Hd].
      * rewrite nth_upd_same by exact Hi. split; [exact S1|]. split; [exact S2|]. intros k Hk. rewrite Hix.
        destruct (S3 k Hk) as [->|Hk']; [reflexivity|apply Hidx; exact Hk'].
      * rewrite nth_upd_other by exact Hd. destruct (Hb i' Hi') as (B1 & B2 & B3). split; [exact B1|]. split; [exact B2|exact B3].
    + unfold xht_free. cbn [h' x_zen x_freed x_next].
      destruct (concat_upd _ _ node_own (x_zen h) i bk' Hi) as (p & q & C1 & C2). rewrite C2.
      rewrite <- Hperm. unfold xht_free. rewrite C1.
      change (match n_own (nth j b1 empty_node) with Some a => [a] | None => [] end) with (node_own (nth j b1 empty_node)).
      set (o := match own with Some a => [a] | None => [] end) in *.
      set (N := node_own (nth j b1 empty_node)) in *. set (F := flat_map node_own bk') in *. set (G := flat_map node_own (nth i (x_zen h) [])) in *.
      clear - S6. apply (Permutation_count_occ Nat.eq_dec). intros x. apply (proj1 (Permutation_count_occ Nat.eq_dec _ _)) with (x := x) in S6.
      revert S6. repeat rewrite count_occ_app. lia.
  - intros k. unfold xht_get. rewrite Hix. cbn [h' x_zen].
    destruct (Nat.eq_dec i (index h k)) as [E|E].
    + rewrite <- E. rewrite nth_upd_same by exact Hi. destruct (list_eq_dec Z.eq_dec k key) as [->|Hk]; [exact S4|apply S5; exact Hk].
    + rewrite nth_upd_other by exact E. destruct (list_eq_dec Z.eq_dec k key) as [->|Hk]; [contradiction|reflexivity].
Qed.

Lemma new_ok : forall prime, 0 < prime -> xht_ok (xht_new prime).
Proof.
  intros prime Hp. unfold xht_new. split; [exact Hp|]. cbn [x_zen x_prime x_freed x_next xht_free].
  split; [unfold zlen; rewrite repeat_length; lia|]. split.
  - rewrite repeat_length. intros i Hi. assert (E : nth i (repeat [empty_node] (Z.to_nat prime)) [] = [empty_node]).
    { rewrite nth_indep with (d' := [empty_node]) by (rewrite repeat_length; exact Hi). apply nth_repeat. }
    rewrite E. split; [discriminate|]. split; [constructor|]. intros k [].
  - unfold xht_free. cbn [x_zen]. cbn [app seq].
    assert (E : forall n, flat_map node_own (concat (repeat [empty_node] n)) = []) by (induction n; cbn; auto). rewrite E. constructor.
Qed.

Lemma do_ok : forall h o, xht_ok h -> xht_ok (xht_do h o) /\ x_prime (xht_do h o) = x_prime h /\
  (forall k, xht_get (xht_do h o) k =
     match o with
     | XSet k0 v => fm_put (xht_get h) k0 v k
     | XStore k0 kl v vl => match kl, v with
                            | S _, Some v => fm_put (xht_get h) (cstr (firstn kl k0)) (Some (firstn vl v)) k
                            | _, _ => xht_get h k
                            end
     end).
Proof.
  intros h o Hok. pose proof Hok as (Hp & Hz & Hb & Hperm). destruct o as [k0 v|k0 kl v vl]; cbn [xht_do].
  - unfold xht_set. apply (set1_ok h k0 v None 0 Hp Hz Hb). exact Hperm.
  - unfold xht_store. destruct kl as [|kl]; [split; [exact Hok|split; reflexivity]|]. destruct v as [v|]; [|split; [exact Hok|split; reflexivity]].
    set (h1 := mkxht (x_prime h) (x_zen h) (S (x_next h)) (x_freed h)).
    destruct (set1_ok h1 (cstr (firstn (S kl) k0)) (Some (firstn vl v)) (Some (x_next h)) 0 Hp Hz Hb) as (H1 & H2 & H3).
    { cbn [h1 x_freed x_next]. change (xht_free h1) with (xht_free h). rewrite seq_S. cbn [app Nat.add].
      rewrite Hperm. apply Permutation_cons_append. }
    split; [exact H1|]. split; [exact H2|exact H3].
Qed.

Lemma run_ok : forall prime ops, 0 < prime -> xht_ok (xht_run prime ops) /\ x_prime (xht_run prime ops) = prime.
Proof.
  intros prime ops Hp. unfold xht_run.
  assert (H : forall ops h, xht_ok h -> x_prime h = prime -> xht_ok (fold_left xht_do ops h) /\ x_prime (fold_left xht_do ops h) = prime).
  { induction ops0 as [|o ops0 IH]; intros h Hok Hpr; cbn [fold_left]; [auto|]. destruct (do_ok h o Hok) as (H1 & H2 & _). apply IH; [exact H1|congruence]. }
  apply H; [apply new_ok; exact Hp|reflexivity].
Qed.

Lemma walk_get : forall h k v, xht_ok h -> (In (k, v) (xht_walk h) <-> xht_get h k = Some v).
Proof.
  intros h k v Hok. pose proof Hok as (Hp & Hz & Hb & _). unfold xht_walk, xht_get.
  assert (Hlk : forall bk, NoDup (keys bk) -> (In (k, v) (flat_map node_pair bk) <-> lookup bk k = Some v)).
  { induction bk as [|n bk IH]; intros Hnd; [cbn; split; [tauto|discriminate]|].
    change (n :: bk) with ([n] ++ bk). rewrite flat_map_app, in_app_iff, lookup_app. cbn [flat_map existsb]. rewrite app_nil_r, orb_false_r.
    change (n :: bk) with ([n] ++ bk) in Hnd. rewrite keys_app in Hnd.
    destruct (has_key k n) eqn:E.
    - assert (Hk : n_key n = Some k) by (unfold has_key in E; destruct (n_key n); [apply bytes_eqb_eq in E; congruence|discriminate]).
      unfold lookup. cbn [find]. rewrite E. unfold node_pair at 1. rewrite Hk.
      assert (Hn : ~ In k (keys bk)).
      { unfold keys at 1 in Hnd. cbn [flat_map] in Hnd. rewrite Hk in Hnd. cbn [app] in Hnd. inversion Hnd; assumption. }
      assert (Hn2 : ~ In (k, v) (flat_map node_pair bk)).
      { intros H. apply Hn. unfold keys. apply in_flat_map in H. destruct H as (n1 & Hn1 & H1). apply in_flat_map. exists n1. split; [exact Hn1|].
        unfold node_pair in H1. destruct (n_key n1); [|destruct H1]. destruct (n_val n1); [|destruct H1]. destruct H1 as [H1|[]]. injection H1 as -> ->. left. reflexivity. }
      destruct (n_val n) as [v0|]; cbn [In]; split; intros H; try tauto; try discriminate.
      + destruct H as [[H|[]]|H]; [congruence|tauto].
      + left. left. congruence.
    - assert (Hnd' : NoDup (keys bk)).
      { destruct (keys [n]) as [|k0 [|k1 ks]] eqn:Ek; cbn [app] in Hnd; [exact Hnd|inversion Hnd; assumption|].
        unfold keys in Ek. cbn [flat_map] in Ek. destruct (n_key n); discriminate. }
      rewrite <- (IH Hnd'). split; [|tauto]. intros [H|H]; [|exact H]. unfold node_pair in H. unfold has_key in E.
      destruct (n_key n) as [k0|]; [|destruct H]. destruct (n_val n); [|destruct H]. destruct H as [H|[]]. injection H as -> ->. rewrite bytes_eqb_refl in E. discriminate. }
  split.
  - intros H. apply in_flat_map in H. destruct H as (n & Hn & Hp'). apply in_concat in Hn. destruct Hn as (bk & Hbk & Hn).
    destruct (In_nth _ _ [] Hbk) as (i & Hi & Ei). destruct (Hb i Hi) as (_ & Hnd & Hidx). rewrite Ei in *.
    assert (Hk : In k (keys bk)).
    { unfold keys. apply in_flat_map. exists n. split; [exact Hn|]. unfold node_pair in Hp'. destruct (n_key n); [|destruct Hp']. destruct (n_val n); [|destruct Hp'].
      destruct Hp' as [H|[]]. injection H as -> ->. left. reflexivity. }
    rewrite (Hidx k Hk), Ei. apply Hlk; [exact Hnd|]. apply in_flat_map. exists n. auto.
  - intros H. pose proof (index_lt h k Hok) as Hi. destruct (Hb _ Hi) as (_ & Hnd & _).
    apply Hlk in H; [|exact Hnd]. apply in_flat_map in H. destruct H as (n & Hn & H). apply in_flat_map. exists n. split; [|exact H].
    apply in_concat. exists (nth (index h k) (x_zen h) []). split; [apply nth_In; exact Hi|exact Hn].
Qed.

Lemma walk_nodup : forall h, xht_ok h -> NoDup (map fst (xht_walk h)).
Proof.
  intros h (Hp & Hz & Hb & _). unfold xht_walk.
  assert (Hsub : forall n, map fst (node_pair n) = [] \/ exists k, n_key n = Some k /\ map fst (node_pair n) = [k]).
  { intros n. unfold node_pair. destruct (n_key n) as [k|]; [|auto]. destruct (n_val n); [|auto]. right. exists k. auto. }
  assert (Hin : forall bk k, In k (map fst (flat_map node_pair bk)) -> In k (keys bk)).
  { induction bk as [|n bk IH]; intros k H; [destruct H|]. cbn [flat_map] in H. rewrite map_app, in_app_iff in H.
    change (n :: bk) with ([n] ++ bk). rewrite keys_app, in_app_iff. destruct H as [H|H]; [|right; apply IH; exact H].
    left. destruct (Hsub n) as [E|(k0 & Ek & E)]; rewrite E in H; [destruct H|]. destruct H as [<-|[]]. unfold keys. cbn [flat_map]. rewrite Ek. left. reflexivity. }
  assert (Hbk : forall bk, NoDup (keys bk) -> NoDup (map fst (flat_map node_pair bk))).
  { induction bk as [|n bk IH]; intros Hnd; [constructor|]. cbn [flat_map]. rewrite map_app.
    change (n :: bk) with ([n] ++ bk) in Hnd. rewrite keys_app in Hnd.
    destruct (Hsub n) as [E|(k0 & Ek & E)]; rewrite E.
    - apply IH. destruct (keys [n]) as [|k1 [|k2 ks]] eqn:E2; cbn [app] in Hnd; [exact Hnd|inversion Hnd; assumption|]. unfold keys in E2. cbn [flat_map] in E2. destruct (n_key n); discriminate.
    - assert (E2 : keys [n] = [k0]) by (unfold keys; cbn [flat_map]; rewrite Ek; reflexivity). rewrite E2 in Hnd. cbn [app] in *. inversion Hnd; subst.
      constructor; [intros H; apply Hin in H; contradiction|apply IH; assumption]. }
  (* over buckets: keys of different buckets have different indices *)
  assert (Hgen : forall l o, (forall i, (i < length l)%nat -> NoDup (keys (nth i l [])) /\ forall k, In k (keys (nth i l [])) -> index h k = (o + i)%nat) ->
            NoDup (map fst (flat_map node_pair (concat l))) /\ forall k, In k (map fst (flat_map node_pair (concat l))) -> (o <= index h k)%nat).
  { induction l as [|bk l IH]; intros o H; [split; [constructor|intros k []]|].
    destruct (H O ltac:(cbn; lia)) as [H1 H2]. cbn [nth] in H1, H2.
    destruct (IH (S o)) as [I1 I2].
    { intros i Hi. destruct (H (S i) ltac:(cbn; lia)) as [J1 J2]. cbn [nth] in J1, J2. split; [exact J1|]. intros k Hk. rewrite (J2 k Hk). lia. }
    cbn [concat]. rewrite flat_map_app, map_app. split.
    - assert (Happ : forall (A : Type) (a b : list A), NoDup a -> NoDup b -> (forall x, In x a -> ~ In x b) -> NoDup (a ++ b)).
      { intros A a b Ha Hb' Hd. induction a as [|x a IHa]; [exact Hb'|]. cbn [app]. inversion Ha; subst. constructor.
        - rewrite in_app_iff. intros [?|?]; [contradiction|]. apply (Hd x); [left; reflexivity|assumption].
        - apply IHa; [assumption|]. intros y Hy. apply Hd. right. exact Hy. }
      apply Happ; [apply Hbk; exact H1|exact I1|]. intros k Hk Hk2. apply Hin in Hk. rewrite <- (Nat.add_0_r o) in *. pose proof (H2 k Hk). pose proof (I2 k Hk2). lia.
    - intros k Hk. rewrite in_app_iff in Hk. destruct Hk as [Hk|Hk]; [apply Hin in Hk; rewrite (H2 k Hk); lia|pose proof (I2 k Hk); lia]. }
  apply (Hgen (x_zen h) O). intros i Hi. destruct (Hb i Hi) as (_ & B1 & B2). split; [exact B1|exact B2].
Qed.

(* ------------------------------------------------------------------ *)
(* The map described by a sequence of operations *)
Definition xop_effect (m : fmap) (o : xop) : fmap :=
  match o with
  | XSet k v => fm_put m k v
  | XStore k kl v vl =>
      match kl, v with
      | S _, Some v => fm_put m (cstr (firstn kl k)) (Some (firstn vl v))
      | _, _ => m
      end
  end.

Lemma run_get : forall prime ops k, 0 < prime -> xht_get (xht_run prime ops) k = fold_left xop_effect ops fm_empty k.
Proof.
  intros prime ops k Hp. unfold xht_run.
  assert (G : forall ops h m, xht_ok h -> (forall x, xht_get h x = m x) -> forall x, xht_get (fold_left xht_do ops h) x = fold_left xop_effect ops m x).
  { induction ops0 as [|o ops0 IH]; intros h m Hok Hm x; cbn [fold_left]; [apply Hm|]. destruct (do_ok h o Hok) as (H1 & _ & H2). apply IH; [exact H1|].
    intros y. rewrite H2. assert (Hput : forall k0 v, fm_put (xht_get h) k0 v y = fm_put m k0 v y) by (intros; unfold fm_put; rewrite Hm; reflexivity).
    unfold xop_effect. destruct o as [k0 v|k0 [|kl] [v|] vl]; auto. }
  apply G; [apply new_ok; exact Hp|]. intros x. unfold xht_get, xht_new, index. cbn [x_zen x_prime].
  assert (H : forall n i, lookup (nth i (repeat [empty_node] n) []) x = None) by (induction n as [|n IH]; intros [|i]; cbn [repeat nth]; try reflexivity; apply IH).
  apply H.
Qed.

Lemma run_walk : forall prime ops, 0 < prime ->
  NoDup (map fst (xht_walk (xht_run prime ops))) /\
  forall k v, In (k, v) (xht_walk (xht_run prime ops)) <-> fold_left xop_effect ops fm_empty k = Some v.
Proof.
  intros prime ops Hp. destruct (run_ok prime ops Hp) as [Hok _]. split; [apply walk_nodup; exact Hok|]. intros k v. rewrite walk_get by exact Hok. rewrite run_get by exact Hp. reflexivity.
Qed.

(* One allocation per effective xht_store. *)
Definition is_store (o : xop) : bool :=
  match o with XStore _ (S _) (Some _) _ => true | _ => false end.

Lemma run_free : forall prime ops, 0 < prime ->
  Permutation (x_freed (xht_run prime ops) ++ xht_free (xht_run prime ops)) (seq 0 (length (filter is_store ops))).
Proof.
  intros prime ops Hp. destruct (run_ok prime ops Hp) as [(_ & _ & _ & H) _].
  replace (length (filter is_store ops)) with (x_next (xht_run prime ops)); [exact H|].
  unfold xht_run. assert (G : forall ops h, x_next (fold_left xht_do ops h) = (x_next h + length (filter is_store ops))%nat).
  { induction ops0 as [|o ops0 IH]; intros h; cbn [fold_left filter]; [cbn; lia|]. rewrite IH.
    assert (E : x_next (xht_do h o) = (x_next h + (if is_store o then 1 else 0))%nat).
    { assert (Es : forall h k v w, x_next (xht_set1 h k v w) = x_next h) by (intros; unfold xht_set1; cbv zeta; destruct (pick _ _); reflexivity).
      destruct o as [k0 v|k0 [|kl] [v|] vl]; cbn [xht_do is_store]; unfold xht_set, xht_store; rewrite ?Es; cbn [x_next]; lia. }
    rewrite E. destruct (is_store o); cbn [length]; lia. }
  rewrite G. reflexivity.
Qed.
