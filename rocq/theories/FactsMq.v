(* Supporting proofs for PropMquery.v: the tables. *)
From Verif Require Import Base Lemmas SpecDns SpecMap SpecTxt Hash HashProofs Xht XhtProofs SdTxt SdTxtProofs Wire Rec Qry Out In Api Reent SpecReent Mquery SpecMquery.

(* ------------------------------------------------------------------ *)
(* Calls, one after the other *)
Lemma replayed_snoc : forall A (beh : behaviour A) T a k x a', replayed beh a (T ++ [(k, x)]) a' <-> exists a1 l rm, replayed beh a T a1 /\ beh a1 k x = Ok (a', l, rm).
Proof.
  intros A beh T. induction T as [|[k1 x1] T IH]; intros a k x a'; cbn [app]; split.
  - intros K. inversion K; subst. match goal with K : replayed _ _ [] _ |- _ => inversion K; subst end. exists a, l, rm. split; [constructor|assumption].
  - intros (a1 & l & rm & K & E). inversion K; subst. econstructor; [exact E|constructor].
  - intros K. inversion K; subst. match goal with K : replayed _ _ (T ++ _) _ |- _ => apply IH in K as (a2 & l2 & rm2 & K & E) end. exists a2, l2, rm2. split; [econstructor; eassumption|exact E].
  - intros (a1 & l & rm & K & E). inversion K; subst. econstructor; [eassumption|]. apply IH. eauto.
Qed.

(* ------------------------------------------------------------------ *)
(* A table with a key *)
Section Table.
Context {A : Type} (key : A -> list Z) (dflt : A).
Definition is (n : list Z) (x : A) : bool := bytes_eqb (key x) n.
Definition row (l : list A) (n : list Z) : option A := find (is n) l.

Lemma index_some : forall (p : A -> bool) l k, index_of p l = Some k -> (k < length l)%nat /\ p (nth k l dflt) = true /\ find p l = Some (nth k l dflt).
Proof.
  intros p l. induction l as [|x l IH]; intros k E; cbn [index_of] in E; [discriminate|]. cbn [find length]. destruct (p x) eqn:P.
  - injection E as <-. cbn [nth]. split; [lia|auto].
  - destruct (index_of p l) as [j|]; [|discriminate]. injection E as <-. destruct (IH j eq_refl) as (I1 & I2 & I3). cbn [nth]. split; [lia|auto].
Qed.
Lemma index_none : forall (p : A -> bool) l, index_of p l = None -> find p l = None.
Proof.
  intros p l. induction l as [|x l IH]; intros E; cbn [index_of] in E; [reflexivity|]. cbn [find]. destruct (p x); [discriminate|]. destruct (index_of p l); [discriminate|]. auto.
Qed.
Lemma row_none : forall l n, row l n = None <-> ~ In n (map key l).
Proof.
  intros l n. unfold row. induction l as [|x l IH]; cbn [find map In]; [split; auto|]. unfold is at 1. destruct (bytes_eqb (key x) n) eqn:E.
  - apply bytes_eqb_eq in E. split; [discriminate|intros K; exfalso; apply K; auto].
  - apply bytes_eqb_neq in E. rewrite IH. tauto.
Qed.
Lemma row_some : forall l n x, row l n = Some x -> In x l /\ key x = n.
Proof. intros l n x E. apply find_some in E as [I E]. split; [exact I|]. apply bytes_eqb_eq in E. exact E. Qed.
Lemma row_in : forall l x, NoDup (map key l) -> In x l -> row l (key x) = Some x.
Proof.
  intros l x. induction l as [|y l IH]; intros N I; [destruct I|]. cbn [map] in N. inversion N; subst. unfold row. cbn [find]. unfold is at 1. destruct I as [->|I]; [rewrite bytes_eqb_refl; reflexivity|].
  destruct (bytes_eqb (key y) (key x)) eqn:E; [|apply IH; assumption]. apply bytes_eqb_eq in E. exfalso. match goal with H : ~ In _ _ |- _ => apply H end. rewrite E. apply in_map. exact I.
Qed.

Lemma upd_row : forall l k y m, (k < length l)%nat -> NoDup (map key l) -> key y = key (nth k l dflt) ->
  row (upd l k y) m = (if bytes_eqb (key y) m then Some y else row l m) /\ map key (upd l k y) = map key l.
Proof.
  intros l. induction l as [|x l IH]; intros k y m L N E; cbn [length] in L; [lia|]. cbn [map] in N. inversion N as [|? ? N1 N2]; subst. destruct k as [|k]; cbn [nth] in E; cbn [upd].
  - unfold row. cbn [find map]. unfold is at 1 3. rewrite <- E. split; [|reflexivity]. destruct (bytes_eqb (key y) m); reflexivity.
  - destruct (IH k y m ltac:(lia) N2 E) as [I1 I2]. unfold row in *. cbn [find map]. rewrite I1, I2. split; [|reflexivity]. unfold is at 1 3. destruct (bytes_eqb (key x) m) eqn:Ex; [|reflexivity].
    destruct (bytes_eqb (key y) m) eqn:Ey; [|reflexivity]. exfalso. apply bytes_eqb_eq in Ex, Ey. apply N1. rewrite Ex, <- Ey, E. apply in_map. apply nth_In. lia.
Qed.

(* find or create, then change *)
Variable mk : list Z -> A.
Definition touch (l : list A) (n : list Z) (f : A -> A) : list A :=
  match index_of (is n) l with
  | Some k => upd l k (f (nth k l dflt))
  | None => f (mk n) :: l
  end.
Lemma touch_row : forall l n f m, NoDup (map key l) -> key (mk n) = n -> (forall x, key (f x) = key x) ->
  let x := f (match row l n with Some x => x | None => mk n end) in
  row (touch l n f) m = (if bytes_eqb n m then Some x else row l m) /\ NoDup (map key (touch l n f)) /\ (forall h, In h (map key (touch l n f)) <-> h = n \/ In h (map key l)).
Proof.
  intros l n f m N Kn Kf. cbv zeta. unfold touch. destruct (index_of (is n) l) as [k|] eqn:E.
  - destruct (index_some _ _ _ E) as (L & P & F). fold (row l n) in F. rewrite F. apply bytes_eqb_eq in P.
    destruct (upd_row l k (f (nth k l dflt)) m L N (Kf _)) as [U1 U2]. rewrite U1, U2, Kf, P. split; [reflexivity|]. split; [exact N|]. intros h. split; [auto|]. intros [->|I]; [|exact I]. rewrite <- P. apply in_map. apply nth_In. exact L.
  - pose proof (index_none _ _ E) as F. fold (row l n) in F. rewrite F. unfold row. cbn [find map]. unfold is at 1. rewrite Kf, Kn. split; [reflexivity|]. split.
    + constructor; [|exact N]. apply row_none. exact F.
    + intros h. cbn [In]. split; intros [K|K]; auto.
Qed.
End Table.

(* ------------------------------------------------------------------ *)
Lemma cut_id : forall n s, zlen s < n -> cut n s = s.
Proof. intros n s L. unfold cut. apply firstn_all2. unfold zlen in L. lia. Qed.
Lemma uchars_bytes : forall l, bytes (uchars l).
Proof. intros l. apply Forall_forall. intros c I. apply in_map_iff in I as (x & <- & _). unfold is_byte. pose proof (Z.mod_pos_bound x 256). lia. Qed.
Lemma uchars_len : forall l, zlen (uchars l) = zlen l.
Proof. intros l. unfold zlen, uchars. rewrite map_length. reflexivity. Qed.

Lemma strings_fun : forall l s1, strings_of l s1 -> forall s2, strings_of l s2 -> s1 = s2.
Proof.
  assert (L : forall s r : list Z, len (s ++ r) < len s -> False) by (intros s r K; unfold len in K; rewrite app_length in K; lia).
  intros l s1 K. induction K as [|r|n r N|s r strs Ns K IH]; intros s2 K2; inversion K2; subst; try reflexivity.
  - exfalso. match goal with H : len ?s = 0 |- _ => apply (f_equal Z.to_nat) in H; unfold len in H; rewrite Nat2Z.id in H; destruct s; [congruence|discriminate H] end.
  - exfalso. eapply L; eassumption.
  - exfalso. match goal with H : 0 = len ?s |- _ => apply (f_equal Z.to_nat) in H; unfold len in H; rewrite Nat2Z.id in H; destruct s; [congruence|discriminate H] end.
  - exfalso. eapply L; eassumption.
  - match goal with H1 : len s0 = len s, H2 : s0 ++ _ = s ++ _ |- _ => rename H1 into E1; rename H2 into E2 end.
    assert (E : s0 = s /\ r0 = r).
    { clear - E1 E2. unfold len in E1. apply Nat2Z.inj in E1. revert s0 E1 E2. induction s as [|x s IH]; intros [|y s0] E1 E2; try discriminate; [auto|]. cbn [app] in E2. injection E2 as -> E2. injection E1 as E1. destruct (IH s0 E1 E2) as [-> ->]. auto. }
    destruct E as [-> ->]. f_equal. apply IH. assumption.
Qed.

Lemma txt_ok : forall data, exists strs t, strings_of (uchars data) strs /\ txt2sd (uchars data) (zlen data) = Ok t /\ forall k, get_opt t k = attrs strs k.
Proof.
  intros data. destruct (txt2sd_spec (uchars data) [] (uchars_bytes data)) as (strs & t & S & E & G). rewrite app_nil_r, uchars_len in E. eauto.
Qed.

(* ------------------------------------------------------------------ *)
(* The first of ... *)
Lemma first_snoc : forall B (P : call -> B -> Prop) T o c, first_of P T o -> (o <> None \/ (forall b, ~ P c b)) -> first_of P (T ++ [c]) o.
Proof.
  intros B P T [b|] c F K; cbn [first_of] in *.
  - destruct F as (T1 & c0 & T2 & -> & Pc & N). exists T1, c0, (T2 ++ [c]). rewrite <- app_assoc. auto.
  - destruct K as [K|K]; [congruence|]. intros c' b I. apply in_app_or in I as [I|[<-|[]]]; [apply F; exact I|apply K].
Qed.
Lemma first_new : forall B (P : call -> B -> Prop) T c b, first_of P T None -> P c b -> first_of P (T ++ [c]) (Some b).
Proof. intros B P T c b F K. exists T, c, []. split; [reflexivity|]. split; [exact K|]. intros c' b' I. apply F. exact I. Qed.

Lemma firsts_in : forall l x, In x (firsts l) <-> In x l.
Proof.
  intros l x. induction l as [|y l IH]; cbn [firsts In]; [tauto|]. rewrite filter_In, IH. destruct (bytes_eqb x y) eqn:E; cbn [negb].
  - apply bytes_eqb_eq in E. subst. tauto.
  - intuition.
Qed.
Lemma filter_firsts : forall (p : list Z -> bool) l x, filter p (l ++ [x]) = filter p l ++ (if p x then [x] else []).
Proof. intros p l x. rewrite filter_app. cbn [filter]. reflexivity. Qed.
Lemma firsts_snoc : forall l x, firsts (l ++ [x]) = if existsb (fun y => bytes_eqb y x) l then firsts l else firsts l ++ [x].
Proof.
  intros l x. induction l as [|y l IH]; [reflexivity|]. cbn [app firsts existsb]. rewrite IH. destruct (bytes_eqb y x) eqn:E; cbn [orb].
  - apply bytes_eqb_eq in E. subst y. destruct (existsb _ l); [reflexivity|]. rewrite filter_firsts, bytes_eqb_refl. cbn [negb]. rewrite app_nil_r. reflexivity.
  - destruct (existsb _ l); [reflexivity|]. rewrite filter_firsts. replace (bytes_eqb x y) with false; [reflexivity|]. symmetry. apply bytes_eqb_neq. apply bytes_eqb_neq in E. congruence.
Qed.
Lemma addresses_snoc : forall ntop h T c, addresses_of ntop h (T ++ [c]) = addresses_of ntop h T ++ addresses_in ntop h c.
Proof. intros ntop h T c. unfold addresses_of. rewrite flat_map_app. cbn [flat_map]. rewrite app_nil_r. reflexivity. Qed.

Section Tables.
Variable ntop : Z -> list Z -> list Z.
Hypothesis ntop_short : forall f a, zlen (ntop f a) < INET6_ADDRSTRLEN.

Definition host_row (s : tables) (h : list Z) : option device := row v_host (devices s) h.
Definition inst_row (s : tables) (n : list Z) : option instance := row i_name (instances s) n.

(* ---- devices ---- *)
Definition new_device (n : list Z) : device := mkdevice n [].
Definition added (text : list Z) (v : device) : device :=
  if existsb (fun a => bytes_eqb a text) (v_addrs v) then v else if zlen (v_addrs v) <? 8 then mkdevice (v_host v) (v_addrs v ++ [text]) else v.
Lemma add_addr : forall v text, zlen text < INET6_ADDRSTRLEN -> device_add_addr v text = Ok (added text v).
Proof.
  intros v text L. unfold device_add_addr, added, ADDRS. destruct (existsb _ _); [reflexivity|]. destruct (zlen (v_addrs v) <? 8); [|reflexivity]. rewrite (cut_id _ _ L). reflexivity.
Qed.
Lemma add_device_ok : forall s name text, zlen text < INET6_ADDRSTRLEN -> zlen name <= 255 ->
  add_device s name text = Ok (mktables (instances s) (touch v_host no_device new_device (devices s) name (added text)), [], false).
Proof.
  intros s name text L N. unfold add_device, find_or_create_device, touch. fold (is v_host name). change (fun v => bytes_eqb (v_host v) name) with (is v_host name).
  destruct (index_of (is v_host name) (devices s)) as [k|].
  - rewrite (add_addr _ _ L). reflexivity.
  - cbn [nth]. rewrite (add_addr _ _ L). cbn [bind upd]. rewrite cut_id by lia. reflexivity.
Qed.

Definition dev_inv (T : list call) (s : tables) : Prop :=
  NoDup (map v_host (devices s)) /\ (forall h, In h (map v_host (devices s)) <-> addresses_of ntop h T <> []) /\
  forall v, In v (devices s) -> v_addrs v = firstn 8 (firsts (addresses_of ntop (v_host v) T)).

Lemma existsb_in : forall text l, existsb (fun a => bytes_eqb a text) l = true <-> In text l.
Proof.
  intros text l. rewrite existsb_exists. split.
  - intros (x & I & E). apply bytes_eqb_eq in E. subst. exact I.
  - intros I. exists text. split; [exact I|apply bytes_eqb_refl].
Qed.

Lemma dev_same : forall T s c s', dev_inv T s -> devices s' = devices s -> (forall h, addresses_in ntop h c = []) -> dev_inv (T ++ [c]) s'.
Proof.
  intros T s c s' (I1 & I2 & I3) E N. unfold dev_inv. rewrite E. split; [exact I1|]. split.
  - intros h. rewrite addresses_snoc, N, app_nil_r. apply I2.
  - intros v I. rewrite addresses_snoc, N, app_nil_r. apply I3. exact I.
Qed.
Lemma added_firsts : forall l text, let v := firstn 8 (firsts l) in
  (if existsb (fun a => bytes_eqb a text) v then v else if zlen v <? 8 then v ++ [text] else v) = firstn 8 (firsts (l ++ [text])).
Proof.
  intros l text. cbv zeta. rewrite firsts_snoc. destruct (existsb (fun y => bytes_eqb y text) l) eqn:E.
  - assert (I : In text (firsts l)) by (apply firsts_in; apply (existsb_in text l); exact E).
    destruct (existsb _ (firstn 8 (firsts l))) eqn:E1; [reflexivity|]. destruct (zlen (firstn 8 (firsts l)) <? 8) eqn:E2; [|reflexivity].
    exfalso. assert (L : (length (firsts l) < 8)%nat) by (unfold zlen in E2; rewrite firstn_length in E2; lia).
    rewrite firstn_all2 in E1 by lia. apply (existsb_in text _) in I. congruence.
  - assert (N : ~ In text (firsts l)) by (intros K; apply (proj1 (firsts_in _ _)) in K; apply (existsb_in text l) in K; congruence).
    destruct (existsb _ (firstn 8 (firsts l))) eqn:E1.
    { exfalso. apply N. apply (existsb_in text _) in E1. rewrite <- (firstn_skipn 8 (firsts l)). apply in_or_app. left. exact E1. }
    destruct (zlen (firstn 8 (firsts l)) <? 8) eqn:E2.
    + assert (L : (length (firsts l) < 8)%nat) by (unfold zlen in E2; rewrite firstn_length in E2; lia). rewrite (firstn_all2 (firsts l)) by lia. rewrite firstn_all2 by (rewrite app_length; cbn [length]; lia). reflexivity.
    + assert (L : (8 <= length (firsts l))%nat) by (unfold zlen in E2; rewrite firstn_length in E2; lia). rewrite firstn_app. replace (8 - length (firsts l))%nat with 0%nat by lia. cbn [firstn]. rewrite app_nil_r. reflexivity.
Qed.

Lemma dev_added : forall T s c name text s', dev_inv T s -> devices s' = touch v_host no_device new_device (devices s) name (added text) ->
  (forall h, addresses_in ntop h c = if bytes_eqb name h then [text] else []) -> dev_inv (T ++ [c]) s'.
Proof.
  intros T s c name text s' (I1 & I2 & I3) E N.
  assert (Kf : forall v, v_host (added text v) = v_host v) by (intros v; unfold added; destruct (existsb _ _); [reflexivity|destruct (_ <? _); reflexivity]).
  pose proof (fun m => touch_row v_host no_device new_device (devices s) name (added text) m I1 eq_refl Kf) as Tr. cbv zeta in Tr. rewrite <- E in Tr.
  destruct (Tr name) as (_ & N1 & N2). unfold dev_inv. split; [exact N1|]. split.
  - intros h. rewrite N2, addresses_snoc, N. destruct (bytes_eqb name h) eqn:En.
    + apply bytes_eqb_eq in En. subst h. split; [|auto]. intros _ K. apply app_eq_nil in K as [_ K]. discriminate K.
    + apply bytes_eqb_neq in En. rewrite app_nil_r. rewrite <- I2. split; [intros [K|K]; [congruence|exact K]|auto].
  - intros v Iv. pose proof (row_in v_host (devices s') v N1 Iv) as Rv. destruct (Tr (v_host v)) as (Tv & _). rewrite Tv in Rv. rewrite addresses_snoc, N. destruct (bytes_eqb name (v_host v)) eqn:En.
    + apply bytes_eqb_eq in En. rewrite <- En. injection Rv as <-. unfold added. rewrite <- added_firsts.
      destruct (row v_host (devices s) name) as [w|] eqn:Rw.
      * apply row_some in Rw as [Iw Kw]. rewrite (I3 w Iw), Kw. destruct (existsb _ _); [exact (eq_trans (I3 w Iw) ltac:(rewrite Kw; reflexivity))|].
        destruct (_ <? 8); [cbn [v_addrs]; reflexivity|exact (eq_trans (I3 w Iw) ltac:(rewrite Kw; reflexivity))].
      * apply row_none in Rw. rewrite I2 in Rw. destruct (addresses_of ntop name T) as [|y l] eqn:Ea; [|exfalso; apply Rw; discriminate]. cbn [firsts firstn new_device v_addrs existsb zlen length Z.of_nat Z.ltb Z.compare app]. reflexivity.
    + apply row_some in Rv as [Iw _]. rewrite app_nil_r. apply I3. exact Iw.
Qed.
End Tables.
