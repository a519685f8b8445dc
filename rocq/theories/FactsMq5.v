(* Supporting proofs for PropMquery.v: what is printed. *)
From Verif Require Import Base Lemmas SpecDns SpecMap SpecTxt Hash HashProofs Wire Rec Qry Out In Api Reent SpecReent ReentRuns Mquery SpecMquery FactsMq FactsMq2.

Lemma undotted_dot : forall h, undotted (h ++ [46]) = h.
Proof. intros h. unfold undotted. rewrite rev_app_distr. cbn [rev app]. apply rev_involutive. Qed.
Lemma undotted_other : forall h, (forall r, h <> r ++ [46]) -> undotted h = h.
Proof.
  intros h N. unfold undotted. destruct (rev h) as [|c r] eqn:E; [reflexivity|]. assert (H : h = rev r ++ [c]) by (rewrite <- (rev_involutive h), E; reflexivity).
  destruct (Z.eq_dec c 46) as [->|D]; [destruct (N _ H)|]. destruct c as [|p|p]; try reflexivity. repeat (destruct p as [p|p|]; try reflexivity). congruence.
Qed.
Lemma dotted_or : forall h : list Z, (exists r, h = r ++ [46]) \/ (forall r, h <> r ++ [46]).
Proof.
  intros h. destruct (rev h) as [|c r] eqn:E.
  - right. intros r K. rewrite K, rev_app_distr in E. discriminate.
  - assert (H : h = rev r ++ [c]) by (rewrite <- (rev_involutive h), E; reflexivity). destruct (Z.eq_dec c 46) as [->|D]; [left; eauto|]. right. intros r' K. rewrite H in K. apply app_inj_tail in K. tauto.
Qed.
Lemma shortname_undotted : forall h, zlen h <= 255 -> shortname h = undotted h.
Proof.
  intros h L. unfold shortname. rewrite cut_id by lia. cbv zeta. destruct (dotted_or h) as [(r & ->)|N].
  - rewrite undotted_dot. rewrite zlen_app. change (zlen [46]) with 1. pose proof (zlen_nonneg _ r). replace (zlen r + 1 - 1) with (zlen r) by lia. rewrite zget_app_r by lia. replace (zlen r - zlen r) with 0 by lia.
    replace ((0 <? zlen r + 1) && (zget [46] 0 =? 46)) with true by (cbn; lia). rewrite firstn_app. unfold zlen at 1 2. rewrite Nat2Z.id. rewrite firstn_all, Nat.sub_diag. apply app_nil_r.
  - rewrite (undotted_other h N). destruct (0 <? zlen h) eqn:E0; [|reflexivity]. destruct (zget h (zlen h - 1) =? 46) eqn:E1; [|reflexivity]. exfalso.
    destruct (rev h) as [|c r] eqn:E; [assert (h = []) by (rewrite <- (rev_involutive h), E; reflexivity); subst h; rewrite zlen_nil in E0; lia|].
    assert (H : h = rev r ++ [c]) by (rewrite <- (rev_involutive h), E; reflexivity). rewrite H in E1. rewrite zlen_app in E1. change (zlen [c]) with 1 in E1. replace (zlen (rev r) + 1 - 1) with (zlen (rev r)) in E1 by lia.
    rewrite zget_app_r in E1 by lia. replace (zlen (rev r) - zlen (rev r)) with 0 in E1 by lia. change (zget [c] 0) with c in E1. apply (N (rev r)). rewrite H. f_equal. f_equal. lia.
Qed.
Lemma undotted_len : forall h, zlen (undotted h) <= zlen h.
Proof. intros h. destruct (dotted_or h) as [(r & ->)|N]; [rewrite undotted_dot, zlen_app; change (zlen [46]) with 1; lia|rewrite undotted_other by exact N; lia]. Qed.

Lemma strchr_no : forall c s, ~ In c s -> strchr c s = (s, None).
Proof. intros c s. induction s as [|x s IH]; intros N; [reflexivity|]. cbn [strchr]. destruct (x =? c) eqn:E; [destruct N; left; lia|]. rewrite IH by (intros K; apply N; right; exact K). reflexivity. Qed.
Lemma strchr_at : forall c s r, ~ In c s -> strchr c (s ++ c :: r) = (s, Some r).
Proof. intros c s r. induction s as [|x s IH]; intros N; cbn [app strchr]; [rewrite Z.eqb_refl; reflexivity|]. destruct (x =? c) eqn:E; [destruct N; left; lia|]. rewrite IH by (intros K; apply N; right; exact K). reflexivity. Qed.
Lemma strchr_split : forall c s, (~ In c s /\ strchr c s = (s, None)) \/ exists a r, ~ In c a /\ s = a ++ c :: r /\ strchr c s = (a, Some r).
Proof.
  intros c s. induction s as [|x s IH]; [left; auto|]. destruct (Z.eq_dec x c) as [->|D]; [right; exists [], s; split; [auto|]; split; [reflexivity|]; cbn [strchr]; rewrite Z.eqb_refl; reflexivity|].
  destruct IH as [[N E]|(a & r & N & E1 & E2)].
  - left. assert (N' : ~ In c (x :: s)) by (intros [K|K]; [congruence|exact (N K)]). split; [exact N'|]. apply strchr_no. exact N'.
  - right. exists (x :: a), r. assert (N' : ~ In c (x :: a)) by (intros [K|K]; [congruence|exact (N K)]). subst s. split; [exact N'|]. split; [reflexivity|]. apply (strchr_at c (x :: a) r N').
Qed.

(* matches_detail, in terms of strings *)
Lemma matches_iff : forall given h, zlen h <= 255 -> (matches_detail (Some given) h = true <-> h = given \/ h = given ++ [46] \/ (no_dot given /\ exists r, h = given ++ 46 :: r)).
Proof.
  intros given h L. unfold matches_detail. rewrite shortname_undotted by exact L. cbv zeta. pose proof (undotted_len h) as Lu. rewrite cut_id by lia.
  rewrite !orb_true_iff. rewrite !bytes_eqb_eq. destruct (dotted_or h) as [(b & ->)|N].
  - rewrite undotted_dot. destruct (strchr_split 46 b) as [[Nb E]|(a & r & Na & E1 & E2)].
    + rewrite E. cbn [fst]. split.
      * intros [[->| ->]| ->]; auto.
      * intros [<-|[K|(Ng & r & K)]]; [auto|apply app_inj_tail in K as [-> _]; auto|]. assert (b = given); [|auto]. clear - Nb Ng K.
        revert given Ng K. induction b as [|x b IH]; intros [|y given] Ng K; cbn [app] in K; [reflexivity| | |].
        -- injection K as -> K. destruct given; discriminate.
        -- injection K as -> K. destruct Nb. left. reflexivity.
        -- injection K as -> K. f_equal. apply IH; [intros J; apply Nb; right; exact J|intros J; apply Ng; right; exact J|exact K].
    + rewrite E2. cbn [fst]. split.
      * intros [[->| ->]| ->]; [auto|auto|]. right. right. split; [exact Na|]. exists (r ++ [46]). rewrite E1, <- app_assoc. reflexivity.
      * intros [<-|[K|(Ng & r' & K)]]; [auto|apply app_inj_tail in K as [-> _]; auto|]. right. rewrite E1, <- app_assoc in K. cbn [app] in K. generalize dependent (r ++ [46]). clear - Na Ng. intros r K.
        revert given Ng K. induction a as [|x a IH]; intros [|y given] Ng K; cbn [app] in K; [reflexivity| | |].
        -- injection K as <- K. destruct Ng. left. reflexivity.
        -- injection K as -> K. destruct Na. left. reflexivity.
        -- injection K as <- K. f_equal. apply IH; [intros J; apply Na; right; exact J|intros J; apply Ng; right; exact J|exact K].
  - rewrite (undotted_other h N). destruct (strchr_split 46 h) as [[Nb E]|(a & r & Na & E1 & E2)].
    + rewrite E. cbn [fst]. split.
      * intros [[->| ->]| ->]; auto.
      * intros [<-|[K|(Ng & r & K)]]; [auto|destruct (N _ K)|]. destruct Nb. rewrite K. apply in_or_app. right. left. reflexivity.
    + rewrite E2. cbn [fst]. split.
      * intros [[->| ->]| ->]; [auto|auto|]. right. right. split; [exact Na|]. exists r. exact E1.
      * intros [<-|[K|(Ng & r' & K)]]; [auto|destruct (N _ K)|]. right. rewrite E1 in K. clear - Na Ng K.
        revert given Ng K. induction a as [|x a IH]; intros [|y given] Ng K; cbn [app] in K; [reflexivity| | |].
        -- injection K as <- K. destruct Ng. left. reflexivity.
        -- injection K as -> K. destruct Na. left. reflexivity.
        -- injection K as <- K. f_equal. apply IH; [intros J; apply Na; right; exact J|intros J; apply Ng; right; exact J|exact K].
Qed.
Lemma local_host : forall given x, no_dot x -> zlen (x ++ LOCAL) <= 255 -> (matches_detail (Some given) (x ++ LOCAL) = true <-> meant given (x ++ LOCAL)).
Proof.
  intros given x Nx L. rewrite (matches_iff _ _ L). unfold meant. split; (intros [K|[K|K]]; [auto|auto|]); right; right.
  - destruct K as (Ng & r & K). f_equal. change (x ++ LOCAL) with (x ++ 46 :: [108; 111; 99; 97; 108; 46]) in K. revert given Ng K. clear L. induction x as [|c x IH]; intros [|y given] Ng K; cbn [app] in K; [reflexivity| | |].
    + injection K as <- K. destruct Ng. left. reflexivity.
    + injection K as -> K. destruct Nx. left. reflexivity.
    + injection K as <- K. f_equal. apply IH; [intros J; apply Nx; right; exact J|intros J; apply Ng; right; exact J|exact K].
  - apply app_inv_tail in K. subst given. split; [exact Nx|]. exists [108; 111; 99; 97; 108; 46]. reflexivity.
Qed.

Lemma service_of_ok : forall inst a b r, no_dot inst -> no_dot a -> no_dot b -> zlen (a ++ 46 :: b ++ 46 :: r) <= 255 -> service_of (inst ++ 46 :: a ++ 46 :: b ++ 46 :: r) = a ++ 46 :: b.
Proof. intros inst a b r Ni Na Nb L. unfold service_of. rewrite (strchr_at 46 inst _ Ni). rewrite cut_id by lia. rewrite (strchr_at 46 a _ Na), (strchr_at 46 b _ Nb). reflexivity. Qed.

(* ---- the table ---- *)
Definition shown (detail : option (list Z)) (v : device) : bool := matches_detail detail (v_host v).
Lemma wider_le : forall w s, w <= wider w s /\ zlen s <= wider w s.
Proof. intros w s. unfold wider. destruct (w <? zlen s) eqn:E; lia. Qed.
Lemma fold_wider : forall l w, w <= fold_left wider l w /\ forall s, In s l -> zlen s <= fold_left wider l w.
Proof.
  induction l as [|x l IH]; intros w; cbn [fold_left]; [split; [lia|intros s []]|]. destruct (IH (wider w x)) as [I1 I2]. destruct (wider_le w x) as [W1 W2]. split; [lia|]. intros s [<-|K]; [lia|apply I2; exact K].
Qed.
Lemma widths_ok : forall s detail n a p, widths s detail = (n, a, p) -> forall v, In v (devices s) -> shown detail v = true ->
  zlen (shortname (v_host v)) + 2 <= n /\ forall x, In x (v_addrs v) -> zlen x + 2 <= a.
Proof.
  intros s detail n a p. unfold widths.
  assert (G : forall l n0 a0 p0 n1 a1 p1,
    fold_left (fun w v => let '(n, a, p) := w in if matches_detail detail (v_host v) then (wider n (shortname (v_host v)), fold_left wider (v_addrs v) a,
      fold_left (fun p i => if negb (bytes_eqb (i_host i) (v_host v)) || match i_product i with [] => true | _ => false end then p else wider p (i_product i)) (instances s) p) else w) l (n0, a0, p0) = (n1, a1, p1) ->
    n0 <= n1 /\ a0 <= a1 /\ forall v, In v l -> shown detail v = true -> zlen (shortname (v_host v)) <= n1 /\ forall x, In x (v_addrs v) -> zlen x <= a1).
  { induction l as [|v l IH]; intros n0 a0 p0 n1 a1 p1 E; cbn [fold_left] in E; [injection E as <- <- <-; split; [lia|]; split; [lia|]; intros v []|].
    destruct (matches_detail detail (v_host v)) eqn:M; apply IH in E as (E1 & E2 & E3).
    - destruct (wider_le n0 (shortname (v_host v))) as [W1 W2]. destruct (fold_wider (v_addrs v) a0) as [W3 W4]. split; [lia|]. split; [lia|]. intros w [<-|K] S; [|apply E3; assumption]. split; [lia|]. intros x Ix. specialize (W4 x Ix). lia.
    - split; [lia|]. split; [lia|]. intros w [<-|K] S; [unfold shown in S; congruence|apply E3; assumption]. }
  destruct (fold_left _ (devices s) (4, 7, 7)) as [[n1 a1] p1] eqn:E. apply G in E as (_ & _ & E3). intros [= <- <- <-] v I S. destruct (E3 v I S) as [K1 K2]. split; [lia|]. intros x J. specialize (K2 x J). lia.
Qed.

Lemma pad_spaces : forall w s, pad w s = s ++ spaces (w - zlen s).
Proof. reflexivity. Qed.
Lemma spaces_more : forall n l, 0 <= n -> spaces n ++ 32 :: l = spaces (n + 1) ++ l.
Proof.
  intros n l N. unfold spaces. replace (Z.to_nat (n + 1)) with (Z.to_nat n + 1)%nat by lia. rewrite repeat_app. cbn [repeat]. rewrite <- app_assoc. reflexivity.
Qed.

Lemma print_devices_ok : forall s detail, (forall v, In v (devices s) -> v_addrs v <> [] /\ zlen (v_host v) <= 255) -> (forall i, In i (instances s) -> zlen (i_product i) <= 63) ->
  exists c1 c2 ls, print_devices s detail = concat ls /\
    Forall2 (fun v l => exists p, product_of s v p /\ rows c1 c2 v p l) (filter (shown detail) (devices s)) ls.
Proof.
  intros s detail Dv Ip. unfold print_devices. destruct (widths s detail) as [[nw aw] pw] eqn:W. pose proof (widths_ok s detail nw aw pw W) as Wd. exists (nw + 1), (nw + 1 + aw + 1).
  exists (map (device_lines s nw aw) (filter (shown detail) (devices s))). split.
  - clear. induction (devices s) as [|v l IH]; [reflexivity|]. cbn [flat_map filter]. unfold shown at 1. destruct (matches_detail detail (v_host v)); cbn [map concat app]; rewrite IH; reflexivity.
  - assert (G : forall l, (forall v, In v l -> In v (devices s)) -> Forall2 (fun v l => exists p, product_of s v p /\ rows (nw + 1) (nw + 1 + aw + 1) v p l) (filter (shown detail) l) (map (device_lines s nw aw) (filter (shown detail) l))); [|apply G; auto].
    induction l as [|v l IH]; intros Sub; [constructor|]. cbn [filter]. assert (IH' := IH ltac:(intros w J; apply Sub; right; exact J)). destruct (shown detail v) eqn:Sh; [|exact IH']. cbn [map]. constructor; [|exact IH'].
    pose proof (Sub v (or_introl eq_refl)) as Iv. destruct (Dv v Iv) as [Na Lh]. destruct (Wd v Iv Sh) as [W1 W2]. rewrite shortname_undotted in W1 by exact Lh.
    unfold device_lines. rewrite shortname_undotted by exact Lh. set (f := find _ (instances s)). eexists. split; cycle 1.
    + unfold rows. cbv zeta. destruct (v_addrs v) as [|first rest]; [congruence|]. exists first, rest, (nw + 1 - zlen (undotted (v_host v))), (aw + 1 - zlen first). split; [reflexivity|].
      specialize (W2 first (or_introl eq_refl)). split; [lia|]. split; [lia|]. split; [lia|]. split; [lia|]. cbn [tl]. f_equal.
      * rewrite !pad_spaces. rewrite <- !app_assoc. cbn [app]. rewrite (spaces_more (nw - zlen (undotted (v_host v)))), (spaces_more (aw - zlen first)) by lia. replace (nw - zlen (undotted (v_host v)) + 1) with (nw + 1 - zlen (undotted (v_host v))) by lia. replace (aw - zlen first + 1) with (aw + 1 - zlen first) by lia. reflexivity.
      * apply map_ext. intros a. rewrite pad_spaces, zlen_nil. cbn [app]. pose proof (zlen_nonneg _ (undotted (v_host v))). rewrite (spaces_more (nw - 0)) by lia. replace (nw - 0 + 1) with (nw + 1) by lia. reflexivity.
    + subst f. destruct (find _ (instances s)) as [i|] eqn:F.
      * apply find_some in F as [I F]. apply andb_true_iff in F as [F1 F2]. apply bytes_eqb_eq in F1. pose proof (Ip i I) as Li. rewrite cut_id by lia. destruct (i_product i) as [|c p] eqn:Ep; [discriminate|]. exists i. auto.
      * intros i I E. pose proof (find_none _ _ F i I) as K. cbv beta in K. rewrite E, bytes_eqb_refl in K. destruct (i_product i); [reflexivity|discriminate].
Qed.

(* ---- the interface ---- *)
Lemma default_dec : forall r, {default_up r} + {~ default_up r}.
Proof.
  intros r. unfold default_up. destruct (10 <=? ro_rc r) eqn:A; [|right; lia]. destruct (Z.odd (ro_flags r)); [|right; intros (_ & K & _); discriminate]. destruct (ro_dest r =? 0) eqn:B; [|right; lia]. destruct (ro_mask r =? 0) eqn:C; [left; repeat split; lia|right; lia].
Qed.
Lemma getifname_ok : forall len l, match getifname [] len l with Some n => exists r, first_default l r /\ n = cut len (ro_name r) | None => forall r, In r l -> ~ default_up r end.
Proof.
  intros len l. induction l as [|r l IH]; cbn [getifname]; [intros r []|].
  assert (Skip : ~ default_up r -> match getifname [] len l with Some n => exists r', first_default (r :: l) r' /\ n = cut len (ro_name r') | None => forall r', In r' (r :: l) -> ~ default_up r' end).
  { intros N. destruct (getifname [] len l) as [n|].
    - destruct IH as (r' & (l1 & l2 & E & D & F) & En). exists r'. split; [|exact En]. exists (r :: l1), l2. split; [cbn [app]; rewrite E; reflexivity|]. split; [exact D|]. intros x [<-|K]; [exact N|apply F; exact K].
    - intros r' [<-|K]; [exact N|apply IH; exact K]. }
  destruct ((ro_rc r <? 10) || negb (Z.odd (ro_flags r))) eqn:A; [apply Skip; intros (K1 & K2 & _); rewrite K2 in A; cbn [negb] in A; lia|].
  destruct (negb (ro_dest r =? 0) || negb (ro_mask r =? 0)) eqn:B; [apply Skip; intros (_ & _ & K1 & K2); rewrite K1, K2 in B; discriminate|].
  exists r. split; [|reflexivity]. exists [], l. split; [reflexivity|]. split; [|intros x []]. apply orb_false_iff in A as [A1 A2]. apply orb_false_iff in B as [B1 B2]. apply negb_false_iff in A2, B1, B2. split; [lia|]. split; [exact A2|]. split; lia.
Qed.

(* ---- ans ---- *)
(* The lines of the default listing, from the answers *)
Lemma ans_listed : forall ntop T s, replayed (ans ntop false) [] T s -> s = flat_map (found_by ntop) T.
Proof.
  intros ntop T s K. assert (G : forall a, replayed (ans ntop false) a T s -> s = a ++ flat_map (found_by ntop) T); [|exact (G [] K)]. clear K.
  intros a K. induction K as [a|a k x a' l rm T a'' E K IH]; [symmetry; apply app_nil_r|]. rewrite IH. clear IH K. unfold ans in E. cbn [negb flat_map] in *. unfold found_by at 2. cbn [snd]. destruct (a_type x =? QTYPE_PTR); cbn [negb] in E.
  - destruct (a_rdname x) as [n|]; [|discriminate]. injection E as <- _ _. rewrite <- app_assoc. reflexivity.
  - injection E as <- _ _. reflexivity.
Qed.
