(* The list of interfaces does what a list should. *)
From Verif Require Import Base Lemmas IfList SpecIfList.

Definition hdo (b : cards) : option nat := option_map fst (hd_error b).
Definition lst (a : cards) : option nat := hdo (rev a).
Record shape (w : world) (l : cards) : Prop := mkshape {
  sh_cell : forall a x nm b, l = a ++ (x, nm) :: b -> cells w x = Some (mkcell nm (hdo b) (lst a));
  sh_first : first w = hdo l;
  sh_last : last w = lst l;
  sh_only : forall x c, cells w x = Some c -> In x (map fst l);
  sh_nodup : NoDup (map fst l);
  sh_used : forall x, In x (map fst l) -> (x < used w)%nat }.

Lemma lst_snoc : forall a c, lst (a ++ [c]) = Some (fst c).
Proof. intros a c. unfold lst. rewrite rev_app_distr. reflexivity. Qed.
Lemma hdo_in : forall b y, hdo b = Some y -> In y (map fst b).
Proof. intros [|[x n] b] y E; [discriminate|]. injection E as <-. left. reflexivity. Qed.
Lemma lst_in : forall a y, lst a = Some y -> In y (map fst a).
Proof. intros a y E. unfold lst in E. apply hdo_in in E. rewrite map_rev in E. apply in_rev. exact E. Qed.
Lemma hdo_app : forall k b b', k <> [] -> hdo (k ++ b) = hdo (k ++ b').
Proof. intros [|c k] b b' N; [congruence|reflexivity]. Qed.
Lemma lst_app : forall a k, k <> [] -> lst (a ++ k) = lst k.
Proof.
  intros a k N. unfold lst. rewrite rev_app_distr. destruct (rev k) as [|c r] eqn:E; [|reflexivity].
  exfalso. apply N. rewrite <- (rev_involutive k), E. reflexivity.
Qed.
Lemma snoc_or_nil : forall a : cards, a = [] \/ exists a' c, a = a' ++ [c].
Proof. intros a. destruct a as [|c a]; [left; reflexivity|right]. destruct (@exists_last _ (c :: a) ltac:(discriminate)) as (a' & c' & E). exists a', c'. exact E. Qed.

Lemma apart_nodup : forall a b : list nat, NoDup (a ++ b) -> forall y, In y a -> In y b -> False.
Proof.
  induction a as [|z a IH]; intros b N y I J; [destruct I|]. cbn [app] in N. inversion N as [|? ? N3 N4]; subst. destruct I as [<-|I]; [apply N3; apply in_or_app; right; exact J|exact (IH b N4 y I J)].
Qed.
Lemma split_ids : forall (a : cards) x nm (b : cards), NoDup (map fst (a ++ (x, nm) :: b)) ->
  ~ In x (map fst a) /\ ~ In x (map fst b) /\ (forall y, In y (map fst a) -> In y (map fst b) -> False) /\ NoDup (map fst (a ++ b)).
Proof.
  intros a x nm b N. rewrite map_app in N. cbn [map fst] in N. pose proof (NoDup_remove_1 _ _ _ N) as N1. pose proof (NoDup_remove_2 _ _ _ N) as N2. rewrite <- map_app in N1, N2.
  split; [intros I; apply N2; rewrite map_app; apply in_or_app; left; exact I|]. split; [intros I; apply N2; rewrite map_app; apply in_or_app; right; exact I|]. split; [|exact N1].
  rewrite map_app in N1. exact (apart_nodup _ _ N1).
Qed.

Lemma shape_start : shape start [].
Proof. split; try reflexivity; try (intros; discriminate); [intros [|] ? ? ? E; discriminate|constructor|intros x []]. Qed.
Lemma shape_next : forall w l p, shape w l -> shape (with_next w p) l.
Proof. intros w l p [A B C D E F]. split; assumption. Qed.

(* The cells after one was removed *)
Lemma free_cells : forall w a x nm b, shape w (a ++ (x, nm) :: b) ->
  exists w', iface_free w x = Ok w' /\ used w' = used w /\ next w' = next w /\
    first w' = (match a with [] => hdo b | _ => first w end) /\ last w' = (match b with [] => lst a | _ => last w end) /\
    forall y, cells w' y = if Nat.eqb y x then None else
      match cells w y with
      | None => None
      | Some c => Some (mkcell (c_name c) (match lst a with Some p => if Nat.eqb y p then hdo b else c_next c | None => c_next c end)
                               (match hdo b with Some n => if Nat.eqb y n then lst a else c_prev c | None => c_prev c end))
      end.
Proof.
  intros w a x nm b H. destruct (split_ids _ _ _ _ (sh_nodup _ _ H)) as (Na & Nb & Nab & _). pose proof (sh_cell _ _ H a x nm b eq_refl) as Ex.
  assert (Cp : forall p, lst a = Some p -> exists c, cells w p = Some c /\ p <> x /\ (forall n, hdo b = Some n -> p <> n)).
  { intros p Ep. destruct (snoc_or_nil a) as [->|(a' & [q qn] & ->)]; [discriminate|]. rewrite lst_snoc in Ep. injection Ep as <-. exists (mkcell qn (hdo ((x, nm) :: b)) (lst a')).
    split; [apply (sh_cell _ _ H); rewrite <- app_assoc; reflexivity|]. assert (I : In q (map fst (a' ++ [(q, qn)]))) by (rewrite map_app; apply in_or_app; right; left; reflexivity).
    split; [intros ->; exact (Na I)|]. intros n En ->. exact (Nab n I (hdo_in _ _ En)). }
  assert (Cn : forall n, hdo b = Some n -> exists c, cells w n = Some c /\ n <> x).
  { intros n En. destruct b as [|[q qn] b']; [discriminate|]. injection En as <-. eexists. split; [apply (sh_cell _ _ H (a ++ [(x, nm)]) q qn b'); rewrite <- app_assoc; reflexivity|]. intros ->. apply Nb. left. reflexivity. }
  unfold iface_free, remove, get. rewrite Ex. cbn [bind c_next c_prev].
  destruct (hdo b) as [n|] eqn:En.
  - destruct (Cn n eq_refl) as (cn & Ecn & Nx). rewrite Ecn. cbn [bind]. destruct (lst a) as [p|] eqn:Ep.
    + destruct (Cp p eq_refl) as (cp & Ecp & Npx & Npn). specialize (Npn n eq_refl). unfold set_next, get. cbn [put cells]. replace (Nat.eqb p n) with false by (symmetry; apply Nat.eqb_neq; exact Npn). rewrite Ecp. cbn [bind].
      eexists. split; [reflexivity|]. split; [reflexivity|]. split; [reflexivity|]. split; [destruct a; [discriminate|reflexivity]|]. split; [destruct b; [discriminate|reflexivity]|].
      intros y. cbn [put cells]. destruct (Nat.eqb_spec y x); [reflexivity|]. destruct (Nat.eqb_spec y p) as [->|].
      * rewrite Ecp. replace (Nat.eqb p n) with false by (symmetry; apply Nat.eqb_neq; exact Npn). reflexivity.
      * destruct (Nat.eqb_spec y n) as [->|]; [rewrite Ecn; reflexivity|]. destruct (cells w y) as [[]|]; reflexivity.
    + unfold set_next. cbn [bind]. eexists. split; [reflexivity|]. split; [reflexivity|]. split; [reflexivity|].
      assert (a = []) as -> by (destruct (snoc_or_nil a) as [->|(a' & c' & ->)]; [reflexivity|rewrite lst_snoc in Ep; discriminate]).
      split; [cbn; congruence|]. split; [destruct b; [discriminate|reflexivity]|].
      intros y. cbn [put cells with_first]. destruct (Nat.eqb_spec y x); [reflexivity|]. destruct (Nat.eqb_spec y n) as [->|]; [rewrite Ecn; reflexivity|]. destruct (cells w y) as [[]|]; reflexivity.
  - assert (b = []) as -> by (destruct b as [|[? ?] ?]; [reflexivity|discriminate]). cbn [bind]. destruct (lst a) as [p|] eqn:Ep.
    + destruct (Cp p eq_refl) as (cp & Ecp & Npx & _). unfold set_next, get. cbn [with_last cells]. rewrite Ecp. cbn [bind].
      eexists. split; [reflexivity|]. split; [reflexivity|]. split; [reflexivity|]. split; [destruct a; [discriminate|reflexivity]|]. split; [reflexivity|].
      intros y. cbn [put cells with_last]. destruct (Nat.eqb_spec y x); [reflexivity|]. destruct (Nat.eqb_spec y p) as [->|]; [rewrite Ecp; reflexivity|]. destruct (cells w y) as [[]|]; reflexivity.
    + unfold set_next. cbn [bind]. eexists. split; [reflexivity|]. split; [reflexivity|]. split; [reflexivity|].
      assert (a = []) as -> by (destruct (snoc_or_nil a) as [->|(a' & c' & ->)]; [reflexivity|rewrite lst_snoc in Ep; discriminate]).
      split; [reflexivity|]. split; [reflexivity|]. intros y. cbn [put cells with_first with_last]. destruct (Nat.eqb_spec y x); [reflexivity|]. destruct (cells w y) as [[]|]; reflexivity.
Qed.

Lemma free_shape : forall w a x nm b, shape w (a ++ (x, nm) :: b) -> exists w', iface_free w x = Ok w' /\ shape w' (a ++ b) /\ used w' = used w /\ next w' = next w.
Proof.
  intros w a x nm b H. destruct (free_cells w a x nm b H) as (w' & E & U & Nx & Fi & La & Ce). exists w'. split; [exact E|]. split; [|split; assumption].
  destruct (split_ids _ _ _ _ (sh_nodup _ _ H)) as (Na & Nb & Nab & Nd). pose proof H as [Hc Hf Hl Ho _ Hu]. split.
  - intros a1 y ym b1 Es. rewrite Ce.
    assert (Iy : In y (map fst (a ++ b))) by (rewrite Es, map_app; apply in_or_app; right; left; reflexivity).
    destruct (Nat.eqb_spec y x) as [->|Ny]; [exfalso; rewrite map_app in Iy; apply in_app_or in Iy as [I|I]; contradiction|].
    assert (W : (exists k, a = a1 ++ (y, ym) :: k /\ b1 = k ++ b) \/ exists k, a1 = a ++ k /\ b = k ++ (y, ym) :: b1).
    { apply app_eq_app in Es as (k & [[-> Ek]|[-> Ek]]); [|right; eauto]. destruct k as [|c k]; [right; exists []; rewrite !app_nil_r; split; [reflexivity|symmetry; exact Ek]|]. injection Ek as <- ->. left. eauto. }
    destruct W as [(k & -> & ->)|(k & -> & ->)].
    + rewrite (Hc a1 y ym (k ++ (x, nm) :: b)) by (rewrite <- app_assoc; reflexivity). cbn [c_name c_next c_prev].
      assert (Ia : In y (map fst (a1 ++ (y, ym) :: k))) by (rewrite map_app; apply in_or_app; right; left; reflexivity).
      f_equal. f_equal.
      * destruct (snoc_or_nil k) as [->|(k' & [z zn] & ->)].
        { rewrite lst_snoc. cbn [fst app]. rewrite Nat.eqb_refl. reflexivity. }
        replace (lst (a1 ++ (y, ym) :: k' ++ [(z, zn)])) with (Some z) by (rewrite app_comm_cons, app_assoc, lst_snoc; reflexivity).
        replace (Nat.eqb y z) with false.
        { apply hdo_app. destruct k'; discriminate. }
        symmetry. apply Nat.eqb_neq. intros ->. clear - Nd. rewrite <- app_assoc in Nd. rewrite map_app in Nd. cbn [app map fst] in Nd. apply NoDup_remove_2 in Nd. apply Nd. apply in_or_app. right. rewrite map_app. apply in_or_app. left. rewrite map_app. apply in_or_app. right. left. reflexivity.
      * destruct (hdo b) as [n|] eqn:En; [|reflexivity]. replace (Nat.eqb y n) with false; [reflexivity|]. symmetry. apply Nat.eqb_neq. intros ->. exact (Nab n Ia (hdo_in _ _ En)).
    + rewrite (Hc (a ++ (x, nm) :: k) y ym b1) by (rewrite <- app_assoc; reflexivity). cbn [c_name c_next c_prev].
      assert (Ib : In y (map fst (k ++ (y, ym) :: b1))) by (rewrite map_app; apply in_or_app; right; left; reflexivity).
      f_equal. f_equal.
      * destruct (lst a) as [p|] eqn:Ep; [|reflexivity]. replace (Nat.eqb y p) with false; [reflexivity|]. symmetry. apply Nat.eqb_neq. intros ->. exact (Nab p (lst_in _ _ Ep) Ib).
      * destruct k as [|[z zn] k].
        { cbn [app hdo hd_error option_map fst]. rewrite Nat.eqb_refl, app_nil_r. reflexivity. }
        cbn [app hdo hd_error option_map fst]. replace (Nat.eqb y z) with false.
        { change ((x, nm) :: (z, zn) :: k) with ([(x, nm)] ++ (z, zn) :: k). rewrite app_assoc, !lst_app by discriminate. reflexivity. }
        symmetry. apply Nat.eqb_neq. intros ->. clear - Nd. rewrite map_app in Nd. cbn [app map fst] in Nd. apply NoDup_remove_2 in Nd. apply Nd. apply in_or_app. right. rewrite map_app. apply in_or_app. right. left. reflexivity.
  - rewrite Fi. destruct a as [|c a]; [reflexivity|]. rewrite Hf. reflexivity.
  - rewrite La. destruct b as [|c b]; [rewrite app_nil_r; reflexivity|]. rewrite Hl. change ((x, nm) :: c :: b) with ([(x, nm)] ++ c :: b). rewrite app_assoc, !lst_app by discriminate. reflexivity.
  - intros y c Ey. rewrite Ce in Ey. destruct (Nat.eqb_spec y x); [discriminate|]. destruct (cells w y) as [c0|] eqn:E0; [|discriminate]. apply Ho in E0. rewrite map_app in *. cbn [map fst] in E0. apply in_app_or in E0 as [I|[I|I]]; [apply in_or_app; left; exact I|congruence|apply in_or_app; right; exact I].
  - exact Nd.
  - intros y I. rewrite U. apply Hu. rewrite map_app in *. apply in_app_or in I as [I|I]; apply in_or_app; [left|right; right]; exact I.
Qed.

Lemma add_shape : forall w l name, shape w l -> exists w', add w name = Ok (w', used w) /\ shape w' (l ++ [(used w, name)]) /\ used w' = S (used w).
Proof.
  intros w l name H. pose proof H as [Hc Hf Hl Ho Hn Hu]. assert (Fr : ~ In (used w) (map fst l)) by (intros I; specialize (Hu _ I); lia).
  assert (Cl : forall y, In y (map fst l) -> Nat.eqb y (used w) = false) by (intros y I; apply Nat.eqb_neq; intros ->; contradiction).
  assert (C : exists w', add w name = Ok (w', used w) /\ used w' = S (used w) /\ first w' = (match l with [] => Some (used w) | _ => first w end) /\ last w' = Some (used w) /\
    forall y, cells w' y = if Nat.eqb y (used w) then Some (mkcell name None (lst l)) else
      match cells w y with None => None | Some c => Some (mkcell (c_name c) (match lst l with Some p => if Nat.eqb y p then Some (used w) else c_next c | None => c_next c end) (c_prev c)) end).
  { unfold add. rewrite Hl. destruct (snoc_or_nil l) as [->|(l' & [p pn] & ->)].
    - cbn [lst rev hdo hd_error option_map set_next bind]. eexists. split; [reflexivity|]. split; [reflexivity|]. split; [reflexivity|]. split; [reflexivity|].
      intros y. cbn [with_last with_first cells]. destruct (Nat.eqb y (used w)); [reflexivity|]. destruct (cells w y) as [[]|]; reflexivity.
    - rewrite lst_snoc. cbn [fst]. assert (Ip : In p (map fst (l' ++ [(p, pn)]))) by (rewrite map_app; apply in_or_app; right; left; reflexivity).
      pose proof (Hc l' p pn [] eq_refl) as Ep. unfold set_next, get. cbn [cells]. rewrite (Cl p Ip), Ep. cbn [bind c_name c_next c_prev]. eexists. split; [reflexivity|]. split; [reflexivity|]. split; [destruct l'; reflexivity|]. split; [reflexivity|].
      intros y. cbn [with_last put cells]. destruct (Nat.eqb_spec y p) as [->|].
      + rewrite (Cl p Ip), Ep. reflexivity.
      + destruct (Nat.eqb y (used w)); [reflexivity|]. destruct (cells w y) as [[]|]; reflexivity. }
  destruct C as (w' & E & U & Fi & La & Ce). exists w'. split; [exact E|]. split; [|exact U]. split.
  - intros a x nm b Es. destruct (snoc_or_nil b) as [->|(b' & c & ->)].
    + apply app_inj_tail in Es as [<- Ec]. injection Ec as <- <-. rewrite Ce, Nat.eqb_refl. reflexivity.
    + rewrite app_comm_cons, app_assoc in Es. apply app_inj_tail in Es as [-> <-].
      assert (Ix : In x (map fst (a ++ (x, nm) :: b'))) by (rewrite map_app; apply in_or_app; right; left; reflexivity).
      rewrite Ce, (Cl x Ix), (Hc a x nm b' eq_refl). cbn [c_name c_next c_prev]. f_equal. f_equal.
      destruct (snoc_or_nil b') as [->|(b2 & [z zn] & ->)].
      * rewrite lst_snoc. cbn [fst]. rewrite Nat.eqb_refl. reflexivity.
      * replace (lst (a ++ (x, nm) :: b2 ++ [(z, zn)])) with (Some z) by (rewrite app_comm_cons, app_assoc, lst_snoc; reflexivity).
        replace (Nat.eqb x z) with false; [rewrite <- (app_nil_r (b2 ++ [(z, zn)])) at 1; apply hdo_app; destruct b2; discriminate|].
        symmetry. apply Nat.eqb_neq. intros ->. clear - Hn. rewrite map_app in Hn. cbn [map fst] in Hn. apply NoDup_remove_2 in Hn. apply Hn. apply in_or_app. right. rewrite map_app. apply in_or_app. right. left. reflexivity.
  - rewrite Fi. destruct l as [|[x nm] l]; [reflexivity|]. rewrite Hf. reflexivity.
  - rewrite La, lst_snoc. reflexivity.
  - intros x c Ex. rewrite Ce in Ex. rewrite map_app. apply in_or_app. destruct (Nat.eqb_spec x (used w)) as [->|]; [right; left; reflexivity|]. destruct (cells w x) eqn:E0; [|discriminate]. left. exact (Ho _ _ E0).
  - rewrite map_app. cbn [map fst]. apply NoDup_rev in Hn. rewrite <- (rev_involutive (map fst l ++ [used w])). apply NoDup_rev. rewrite rev_app_distr. cbn [rev app]. constructor; [|exact Hn]. intros I. apply in_rev in I. contradiction.
  - intros x I. rewrite U. rewrite map_app in I. apply in_app_or in I as [I|[<-|[]]]; [specialize (Hu _ I)|]; cbn [fst]; lia.
Qed.

Lemma few : forall w l, shape w l -> (length l <= used w)%nat.
Proof.
  intros w l H. rewrite <- (map_length fst), <- (seq_length (used w) 0). apply NoDup_incl_length; [exact (sh_nodup _ _ H)|]. intros x I. apply in_seq. pose proof (sh_used _ _ H x I). lia.
Qed.
Lemma at_here : forall w a x nm b, shape w (a ++ (x, nm) :: b) -> get w x = Ok (mkcell nm (hdo b) (lst a)).
Proof. intros w a x nm b H. unfold get. rewrite (sh_cell _ _ H a x nm b eq_refl). reflexivity. Qed.

Lemma visit_shape : forall (frees : list nat -> nat -> bool) b fuel w a s st, shape w (a ++ b) -> (if st : bool then first w else next w) = hdo b -> (length b < fuel)%nat ->
  exists w', visit (fun w s x => if frees s x then iface_free w x else Ok w) fuel w st s = Ok (w', rev s ++ map fst b) /\ shape w' (a ++ kept frees s b) /\ used w' = used w.
Proof.
  intros frees. induction b as [|[x nm] b IH]; intros fuel w a s st H Nx F; (destruct fuel as [|fuel]; [cbn [length] in F; lia|]); cbn [visit]; unfold iface_iterator; rewrite Nx; cbn [hdo hd_error option_map fst bind].
  - exists w. rewrite app_nil_r. auto.
  - rewrite (at_here _ _ _ _ _ H). cbn [bind c_next kept fst map]. pose proof (shape_next w _ (hdo b) H) as H1. destruct (frees s x).
    + destruct (free_shape _ _ _ _ _ H1) as (w' & -> & H' & U' & N'). cbn [bind app]. destruct (IH fuel w' a (x :: s) false H' N' ltac:(cbn [length] in F; lia)) as (w2 & -> & H2 & U2).
      exists w2. cbn [rev]. rewrite <- app_assoc. split; [reflexivity|]. split; [exact H2|]. rewrite U2, U'. reflexivity.
    + cbn [bind]. change (a ++ (x, nm) :: b) with (a ++ [(x, nm)] ++ b) in H1. rewrite app_assoc in H1. destruct (IH fuel _ (a ++ [(x, nm)]) (x :: s) false H1 eq_refl ltac:(cbn [length] in F; lia)) as (w2 & -> & H2 & U2).
      exists w2. cbn [rev]. rewrite <- app_assoc. split; [reflexivity|]. rewrite <- app_assoc in H2. split; [exact H2|]. rewrite U2. reflexivity.
Qed.
Lemma find_shape : forall name b fuel w a st, shape w (a ++ b) -> (if st : bool then first w else next w) = hdo b -> (length b < fuel)%nat ->
  exists w', find_loop fuel w st name = Ok (w', option_map fst (find (fun c => bytes_eqb (snd c) name) b)) /\ shape w' (a ++ b) /\ used w' = used w.
Proof.
  intros name. induction b as [|[x nm] b IH]; intros fuel w a st H Nx F; (destruct fuel as [|fuel]; [cbn [length] in F; lia|]); cbn [find_loop]; unfold iface_iterator; rewrite Nx; cbn [hdo hd_error option_map fst bind find snd].
  - exists w. auto.
  - rewrite (at_here _ _ _ _ _ H). cbn [bind c_next]. pose proof (shape_next w _ (hdo b) H) as H1. rewrite (at_here _ _ _ _ _ H1). cbn [bind c_name].
    destruct (bytes_eqb nm name); [exists (with_next w (hdo b)); auto|].
    change (a ++ (x, nm) :: b) with (a ++ [(x, nm)] ++ b) in *. rewrite app_assoc in *. destruct (IH fuel _ (a ++ [(x, nm)]) false H1 eq_refl ltac:(cbn [length] in F; lia)) as (w2 & E2 & H2 & U2). exists w2. auto.
Qed.
Lemma exit_shape : forall b fuel w, shape w b -> (length b < fuel)%nat -> exists w', exit_loop fuel w (hdo b) = Ok w' /\ shape w' [] /\ used w' = used w.
Proof.
  induction b as [|[x nm] b IH]; intros fuel w H F; (destruct fuel as [|fuel]; [cbn [length] in F; lia|]); cbn [exit_loop hdo hd_error option_map fst].
  - exists w. auto.
  - rewrite (at_here w [] x nm b H). cbn [bind c_next]. destruct (free_shape w [] x nm b H) as (w' & -> & H' & U' & _). cbn [bind]. destruct (IH fuel w' H' ltac:(cbn [length] in F; lia)) as (w2 & E2 & H2 & U2). exists w2. rewrite U2. auto.
Qed.

Lemma perform_shape : forall w l o, shape w l -> exists w', perform w o = Ok (w', snd (ideal l (used w) o)) /\ shape w' (fst (fst (ideal l (used w) o))) /\ used w' = snd (fst (ideal l (used w) o)).
Proof.
  intros w l o H. pose proof (few w l H) as F. destruct o as [name|name|frees|]; cbn [perform ideal fst snd].
  - destruct (add_shape w l name H) as (w' & -> & H' & U'). exists w'. auto.
  - destruct (find_shape name l (S (used w)) w [] true H (sh_first _ _ H) ltac:(lia)) as (w' & E & H' & U'). unfold iface_find. rewrite E. cbn [bind]. exists w'. auto.
  - destruct (visit_shape frees l (S (used w)) w [] [] true H (sh_first _ _ H) ltac:(lia)) as (w' & E & H' & U'). rewrite E. cbn [bind]. exists w'. auto.
  - destruct (exit_shape l (S (used w)) w H ltac:(lia)) as (w' & E & H' & U'). unfold iface_exit. rewrite (sh_first _ _ H), E. cbn [bind]. exists w'. auto.
Qed.
Lemma performs_shape : forall os w l, shape w l -> exists w', performs w os = Ok (w', snd (ideals l (used w) os)) /\ shape w' (fst (ideals l (used w) os)).
Proof.
  induction os as [|o os IH]; intros w l H; cbn [performs ideals]; [exists w; auto|].
  destruct (perform_shape w l o H) as (w1 & -> & H1 & U1). cbn [bind]. destruct (ideal l (used w) o) as [[l1 n1] s1]. cbn [fst snd] in *. subst n1. destruct (IH w1 l1 H1) as (w2 & -> & H2). cbn [bind]. exists w2.
  destruct (ideals l1 (used w1) os) as [l2 ss]. auto.
Qed.
Lemma shape_holds : forall w l, shape w l -> holds_only w l.
Proof.
  intros w l H x name. split.
  - intros I. apply in_split in I as (a & b & ->). rewrite (sh_cell _ _ H a x name b eq_refl). eexists. split; reflexivity.
  - intros (c & Ec & <-). pose proof (sh_only _ _ H _ _ Ec) as I. apply in_map_iff in I as ([y yn] & E & I). cbn [fst] in E. subst y. apply in_split in I as (a & b & ->). rewrite (sh_cell _ _ H a x yn b eq_refl) in Ec. injection Ec as <-. cbn [c_name]. apply in_or_app. right. left. reflexivity.
Qed.

Lemma list_ideal : forall os, exists w, performs start os = Ok (w, snd (ideals [] 0 os)) /\ holds_only w (fst (ideals [] 0 os)).
Proof. intros os. destruct (performs_shape os start [] shape_start) as (w & E & H). exists w. split; [exact E|apply shape_holds; exact H]. Qed.

Lemma ideals_end : forall os l n, fst (ideals l n (os ++ [Loop (fun _ _ => true); Exit])) = [].
Proof.
  induction os as [|o os IH]; intros l n; cbn [app ideals ideal]; [reflexivity|]. destruct (ideal l n o) as [[l1 n1] s1] eqn:E. specialize (IH l1 n1). destruct (ideals l1 n1 _) as [l2 ss]. exact IH.
Qed.
Lemma list_empty : forall os, exists w ss, performs start (os ++ [Loop (fun _ _ => true); Exit]) = Ok (w, ss) /\ forall x, cells w x = None.
Proof.
  intros os. destruct (list_ideal (os ++ [Loop (fun _ _ => true); Exit])) as (w & E & H). rewrite ideals_end in H. exists w. eexists. split; [exact E|]. intros x. destruct (cells w x) as [c|] eqn:Ec; [|reflexivity]. destruct (proj2 (H x (c_name c))). eauto.
Qed.

(* A body that looks for an interface by its name *)
Lemma nested_hangs : forall fuel seen, forall w st, first w = Some 0%nat -> next w = Some 1%nat -> cells w 0%nat = Some (mkcell [97] (Some 1%nat) None) -> cells w 1%nat = Some (mkcell [98] None (Some 0%nat)) ->
  visit (fun w _ _ => '(w, _) <- iface_find w [97];; Ok w) fuel w st seen = Hang.
Proof.
  induction fuel as [|fuel IH]; intros seen w st F N C0 C1; [reflexivity|]. cbn [visit].
  assert (St : forall p, ('(w2, _) <- iface_find (with_next w p) [97];; Ok w2) = Ok (with_next w (Some 1%nat))).
  { intros p. unfold iface_find. cbn [find_loop with_next used first]. unfold iface_iterator. cbn [with_next first]. rewrite F. unfold get. cbn [with_next cells]. rewrite C0. cbn [bind c_next with_next cells]. rewrite C0. reflexivity. }
  unfold iface_iterator. destruct st; [rewrite F|rewrite N]; unfold get; [rewrite C0|rewrite C1]; cbn [bind c_next]; rewrite St; cbn [bind]; apply IH; assumption || reflexivity.
Qed.
Lemma never_ends : forall fuel, match performs start [Add [97]; Add [98]] with
  | Ok (w, _) => visit (fun w _ _ => '(w, _) <- iface_find w [97];; Ok w) fuel w true [] = Hang
  | _ => False
  end.
Proof.
  intros fuel. destruct (performs start [Add [97]; Add [98]]) as [[w ss]| | |] eqn:E; try (vm_compute in E; discriminate E).
  assert (A : match performs start [Add [97]; Add [98]] with Ok (w, _) => first w = Some 0%nat /\ cells w 0%nat = Some (mkcell [97] (Some 1%nat) None) /\ cells w 1%nat = Some (mkcell [98] None (Some 0%nat)) | _ => False end) by (vm_compute; auto).
  rewrite E in A. destruct A as (F & C0 & C1). destruct fuel as [|fuel]; [reflexivity|]. cbn [visit]. unfold iface_iterator. rewrite F. unfold get. rewrite C0. cbn [bind c_next].
  unfold iface_find. cbn [find_loop with_next used first]. unfold iface_iterator. cbn [with_next first]. rewrite F. unfold get. cbn [with_next cells]. rewrite C0. cbn [bind c_next with_next cells]. rewrite C0. cbn [bind c_name]. change (bytes_eqb [97] [97]) with true. cbn [bind].
  apply nested_hangs; assumption || reflexivity.
Qed.
