(* The announcements of mdnsd_out. *)
From Verif Require Import Base Lemmas Hash HashProofs Wire Rec Qry Out RecInv RecSafe RecOps RecAddr OutSafe.

Definition lastof (l : list nat) : option nat := hd_error (rev l).
Lemma lastof_snoc : forall l k, lastof (l ++ [k]) = Some k.
Proof. intros l k. unfold lastof. rewrite rev_app_distr. reflexivity. Qed.

Lemma chain_app : forall h a p b, chain h p (a ++ b) -> exists p', chain h p' b.
Proof.
  induction a as [|x a IH]; intros p b C; [exists p; exact C|]. cbn [app chain] in C. destruct C as [_ (r & _ & C)]. exact (IH _ _ C).
Qed.

(* Unlinking c after k *)
Lemma chain_unlink : forall h h' a p k c l y X,
  chain h p (a ++ k :: c :: l) -> NoDup (a ++ k :: c :: l) -> h k = Some y -> h c = Some X ->
  (forall x, x <> c -> x <> k -> h' x = h x) -> h' k = Some (set_link y (link X)) -> chain h' p (a ++ k :: l).
Proof.
  induction a as [|x a IH]; intros p k c l y X C N Ek Ec O K.
  - cbn [app chain] in *. destruct C as [-> (y0 & E0 & C)]. split; [reflexivity|]. exists (set_link y (link X)). split; [exact K|].
    cbn [chain] in C. destruct C as [C1 (X0 & E1 & C)]. replace X0 with X in * by congruence. cbn [link set_link].
    inversion N as [|? ? N1 N2]; subst. inversion N2 as [|? ? N3 N4]; subst.
    eapply chain_ext; [|exact C]. intros z I. apply O; intros ->; [exact (N3 I)|apply N1; right; exact I].
  - cbn [app chain] in *. destruct C as [-> (r & E & C)]. split; [reflexivity|]. exists r. inversion N as [|? ? N1 N2]; subst.
    split; [|eapply IH; eauto]. rewrite O; [exact E| |]; intros ->; apply N1; apply in_or_app; right; [right; left|left]; reflexivity.
Qed.

(* Announced again later *)
Definition stays (h : heap) (l : list nat) : list nat := filter (holds h (fun X => negb (tdone X) && (tries X + 1 <? 4))) l.
Lemma stays_nolink : forall X Y, nolink X = nolink Y -> (fun X => negb (tdone X) && (tries X + 1 <? 4)) X = (fun X => negb (tdone X) && (tries X + 1 <? 4)) Y.
Proof. intros X Y H. apply nolink_fields in H. destruct H as (E1 & _ & _ & E2 & _). cbn. unfold tdone. rewrite E1, E2. reflexivity. Qed.

(* One record is taken off the announce queue. *)
Lemma unlink_pub : forall s qs kept c l X x',
  rinv s qs -> qs Publish = kept ++ c :: l -> hp s c = Some X -> link x' = link X ->
  let s1 := set_hp s (hset (hp s) c x') in
  let s2 := set_hp s1 (hset (hp s1) c (set_link x' None)) in
  let s3 := if ptr_eqb (a_publish s2) (Some c) then set_head s2 Publish (link X) else s2 in
  exists s4, match lastof kept with
             | None => Ok s3
             | Some k => y <- hget (hp s3) k;; Ok (set_hp s3 (hset (hp s3) k (set_link y (link X))))
             end = Ok s4 /\
    qok s4 (on Publish (kept ++ l) qs) /\ hbut c (hp s) (hp s4) /\ hp s4 c = Some (set_link x' None) /\
    same_rest s s4 /\ chain (hp s4) (link X) l.
Proof.
  intros s qs kept c l X x' H Q E Lx s1 s2 s3. pose proof (ri_q _ _ H) as HQ.
  pose proof (qk_chain _ _ HQ Publish) as C. rewrite Q in C. cbn [head] in C.
  pose proof (qk_nodup _ _ HQ Publish) as ND. rewrite Q in ND.
  assert (NDk : NoDup (kept ++ l) /\ ~ In c (kept ++ l)).
  { split; [eapply NoDup_remove_1; exact ND|eapply NoDup_remove_2; exact ND]. }
  destruct NDk as [ND' NC].
  assert (Sub : forall k x, In x (on Publish (kept ++ l) qs k) -> In x (qs k)).
  { intros k x. destruct (queue_dec k Publish) as [->|D]; [rewrite on_same, Q|rewrite on_other by exact D; auto].
    rewrite !in_app_iff. cbn [In]. tauto. }
  assert (NDq : forall k, NoDup (on Publish (kept ++ l) qs k)).
  { intros k. destruct (queue_dec k Publish) as [->|D]; [rewrite on_same; exact ND'|rewrite on_other by exact D; apply (qk_nodup _ _ HQ)]. }
  assert (DJ : forall a b x, In x (on Publish (kept ++ l) qs a) -> In x (on Publish (kept ++ l) qs b) -> a = b).
  { intros a b x A B. apply (qk_disj _ _ HQ a b x); auto. }
  assert (CI : In c (qs Publish)) by (rewrite Q; apply in_or_app; right; left; reflexivity).
  assert (H2 : forall x, x <> c -> hp s2 x = hp s x).
  { intros x D. unfold s2, s1. cbn [hp set_hp]. rewrite !hset_other by exact D. reflexivity. }
  assert (H2c : hp s2 c = Some (set_link x' None)) by (unfold s2; cbn [hp set_hp]; apply hset_same).
  destruct (rev kept) as [|k rk] eqn:RK.
  - assert (kept = []) by (rewrite <- (rev_involutive kept), RK; reflexivity). subst kept. cbn [app] in *.
    cbn [chain] in C. destruct C as [Eh (X0 & E0 & C)]. replace X0 with X in * by congruence. clear X0 E0.
    assert (S3 : s3 = set_head s2 Publish (link X)).
    { unfold s3. change (a_publish s2) with (a_publish s). rewrite Eh. cbn [ptr_eqb]. rewrite Nat.eqb_refl. reflexivity. }
    rewrite S3. exists (set_head s2 Publish (link X)). unfold lastof. cbn [rev hd_error]. split; [reflexivity|].
    assert (Cl : chain (hp s2) (link X) l) by (eapply chain_ext; [|exact C]; intros x I; apply H2; intros ->; exact (NC I)).
    split; [|split; [|split; [exact H2c|split; [repeat split|exact Cl]]]].
    + split; [| |exact NDq|exact DJ].
      * intros x L. apply (qk_fresh _ _ HQ). cbn [hp set_head] in L. destruct (Nat.eq_dec x c) as [->|D]; [congruence|rewrite <- H2 by exact D; exact L].
      * intros q. destruct (queue_dec q Publish) as [->|D].
        -- rewrite head_set_same, on_same. exact Cl.
        -- rewrite head_set_other, on_other by exact D. eapply chain_ext; [|apply (qk_chain _ _ HQ q)].
           intros x I. apply H2. intros ->. apply D. exact (qk_disj _ _ HQ q Publish c I CI).
    + intros x D. rewrite <- (H2 x D). reflexivity.
  - assert (KE : kept = rev rk ++ [k]) by (rewrite <- (rev_involutive kept), RK; reflexivity). subst kept.
    set (a := rev rk) in *. rewrite <- app_assoc in C, ND, ND', NC. cbn [app] in C, ND, ND', NC.
    assert (Dk : k <> c) by (intros ->; apply NC; apply in_or_app; right; left; reflexivity).
    assert (Lk : hp s k <> None) by (apply (qok_live _ _ Publish k HQ); rewrite Q; apply in_or_app; left; apply in_or_app; right; left; reflexivity).
    destruct (hp s k) as [y|] eqn:Ey; [|congruence].
    assert (S3 : s3 = s2).
    { unfold s3. change (a_publish s2) with (a_publish s).
      replace (ptr_eqb (a_publish s) (Some c)) with false; [reflexivity|]. symmetry. apply ptr_eqb_neq. intros K. rewrite K in C.
      destruct a as [|x0 a0]; cbn [app chain] in C; destruct C as [C _]; inversion C; subst; [congruence|].
      apply NC. left. reflexivity. }
    rewrite S3. rewrite lastof_snoc. rewrite (hget_some _ _ y) by (rewrite H2; assumption). cbn [bind].
    set (s4 := set_hp s2 (hset (hp s2) k (set_link y (link X)))). exists s4. split; [reflexivity|].
    assert (H4k : hp s4 k = Some (set_link y (link X))) by apply hset_same.
    assert (H4 : forall x, x <> c -> x <> k -> hp s4 x = hp s x).
    { intros x D1 D2. unfold s4. cbn [hp set_hp]. rewrite hset_other by exact D2. apply H2. exact D1. }
    assert (H4c : hp s4 c = Some (set_link x' None)) by (unfold s4; cbn [hp set_hp]; rewrite hset_other by congruence; exact H2c).
    assert (Cu : chain (hp s4) (a_publish s) (a ++ k :: l)) by (eapply chain_unlink; eauto).
    split; [|split; [|split; [exact H4c|split; [repeat split|]]]].
    + split; [| |exact NDq|exact DJ].
      * intros x L. apply (qk_fresh _ _ HQ). destruct (Nat.eq_dec x c) as [->|D]; [congruence|].
        destruct (Nat.eq_dec x k) as [->|D']; [congruence|]. rewrite <- H4 by assumption. exact L.
      * intros q. destruct (queue_dec q Publish) as [->|D].
        -- rewrite on_same. rewrite <- app_assoc. exact Cu.
        -- rewrite on_other by exact D. change (head s4 q) with (head s q). eapply chain_ext; [|apply (qk_chain _ _ HQ q)].
           intros x I. apply H4; intros ->; apply D; [exact (qk_disj _ _ HQ q Publish c I CI)|].
           apply (qk_disj _ _ HQ q Publish k I). rewrite Q. apply in_or_app. left. apply in_or_app. right. left. reflexivity.
    + intros x D. destruct (Nat.eq_dec x k) as [->|D']; [rewrite H4k, Ey; reflexivity|rewrite H4 by assumption; reflexivity].
    + clear - C ND E H4 Dk. 
      assert (NN : ~ In c l /\ ~ In k l).
      { apply nodup_app in ND. destruct ND as (_ & ND & _). inversion ND as [|? ? M1 M2]; subst. inversion M2 as [|? ? M3 M4]; subst.
        split; [exact M3|intros I; apply M1; right; exact I]. }
      destruct NN as [N1 N2]. destruct (chain_app _ _ _ _ C) as (p' & C'). cbn [chain] in C'. destruct C' as [_ (y0 & _ & _ & (X0 & E0 & C'))].
      replace X0 with X in * by congruence. eapply chain_ext; [|exact C']. intros x I. apply H4; intros ->; contradiction.
Qed.

Lemma filter_app_cons : forall (A : Type) (p : A -> bool) (k : list A) x l, p x = true -> (k ++ [x]) ++ filter p l = k ++ filter p (x :: l).
Proof. intros A p k x l E. cbn [filter]. rewrite E, <- app_assoc. reflexivity. Qed.

Lemma pub_loop_spec : forall l fuel s qs t frm cls kept cur m seen ret,
  rinv s qs -> qs Publish = kept ++ l -> chain (hp s) cur l -> (length l < fuel)%nat ->
  exists pre rest s',
    let m' := m ++ calls_of cls (hp s) pre in
    l = pre ++ rest /\
    pub_loop fuel s t frm cls cur (lastof kept) m seen ret = Ok (s', m', fold_left answered_add (kept_of (hp s) pre) seen, ret + zlen pre) /\
    rinv s' (on Publish (kept ++ stays (hp s) pre ++ rest) qs) /\ after (upon pre (published t)) (hp s) (hp s') /\ same_times s s' /\
    uans s' = filter (fun u => negb (mem (u_r u) (done_of (hp s) pre))) (uans s) /\
    (forall x rest', rest = x :: rest' -> exists X, hp s x = Some X /\ frm <= mlen m' + rr_len (rr X)).
Proof.
  induction l as [|c l IH]; intros fuel s qs t frm cls kept cur m seen ret H Q C F.
  - destruct fuel as [|fuel]; [cbn in F; lia|]. cbn [chain] in C. subst cur.
    exists [], [], s. cbv zeta. cbn [pub_loop stays filter calls_of flat_map kept_of fold_left done_of app]. rewrite !app_nil_r, zlen_nil, Z.add_0_r.
    split; [reflexivity|]. split; [reflexivity|]. split; [|split; [|split; [apply same_times_refl|split]]].
    + eapply rinv_ext; [exact H|]. intros k. destruct (queue_dec k Publish) as [->|D]; [rewrite on_same, Q, app_nil_r; reflexivity|apply on_other; exact D].
    + apply after_frame. apply hframe_refl.
    + symmetry. apply filter_filter_nil.
    + intros x rest' K. discriminate.
  - destruct fuel as [|fuel]; [lia|]. cbn [length] in F. cbn [chain] in C. destruct C as [-> (X & E & C)].
    cbn [pub_loop]. rewrite (hget_some _ _ _ E). cbn [bind].
    destruct (mlen m + rr_len (rr X) <? frm) eqn:Fit.
    2:{ exists [], (c :: l), s. cbv zeta. cbn [stays filter calls_of flat_map kept_of fold_left done_of app]. rewrite !app_nil_r, zlen_nil, Z.add_0_r.
        split; [reflexivity|]. split; [reflexivity|]. split; [|split; [|split; [apply same_times_refl|split]]].
        + eapply rinv_ext; [exact H|]. intros k. destruct (queue_dec k Publish) as [->|D]; [rewrite on_same; congruence|apply on_other; exact D].
        + apply after_frame. apply hframe_refl.
        + symmetry. apply filter_filter_nil.
        + intros x rest' K. inversion K; subst. exists X. split; [exact E|lia]. }
    set (x' := set_sent (set_tries X (tries X + 1)) t). cbv zeta.
    change (a_ttl (rr x')) with (a_ttl (rr X)). change (a_ttl (rr X) =? 0) with (tdone X). change (tries x') with (tries X + 1).
    pose proof (qk_nodup _ _ (ri_q _ _ H) Publish) as ND. rewrite Q in ND.
    assert (NC : ~ In c (kept ++ l)) by (eapply NoDup_remove_2; exact ND).
    assert (CI : In c (qs Publish)) by (rewrite Q; apply in_or_app; right; left; reflexivity).
    pose proof (ri_u _ _ H c X E) as [U1 U2 U3 U4 U5 U6 U7]. pose proof (U6 CI) as T4.
    assert (NP : ~ In c (qs Probing)) by (intros I; pose proof (qk_disj _ _ (ri_q _ _ H) Probing Publish c I CI); discriminate).
    (* What the rest of the loop gives, from a state that differs at c *)
    assert (Conc : forall s1 qs1 kept1 seen1,
      rinv s1 qs1 -> qs1 Publish = kept1 ++ l -> (forall k, k <> Publish -> qs1 k = qs k) -> chain (hp s1) (link X) l ->
      hbut c (hp s) (hp s1) -> option_map nolink (hp s1 c) = option_map nolink (published t X) -> same_times s s1 ->
      uans s1 = (if tdone X then filter (fun u => negb (Nat.eqb (u_r u) c)) (uans s) else uans s) ->
      seen1 = (if tdone X then seen else answered_add seen c) ->
      kept1 = (if negb (tdone X) && (tries X + 1 <? 4) then kept ++ [c] else kept) ->
      exists pre rest s', let m' := m ++ calls_of cls (hp s) pre in
        c :: l = pre ++ rest /\
        pub_loop fuel s1 t frm cls (link X) (lastof kept1) (m ++ answer_calls cls X) seen1 (ret + 1) = Ok (s', m', fold_left answered_add (kept_of (hp s) pre) seen, ret + zlen pre) /\
        rinv s' (on Publish (kept ++ stays (hp s) pre ++ rest) qs) /\ after (upon pre (published t)) (hp s) (hp s') /\ same_times s s' /\
        uans s' = filter (fun u => negb (mem (u_r u) (done_of (hp s) pre))) (uans s) /\
        (forall x rest', rest = x :: rest' -> exists X, hp s x = Some X /\ frm <= mlen m' + rr_len (rr X))).
    { intros s1 qs1 kept1 seen1 H1 Q1 O1 C1 B Ac T1 Un Se Ke.
      destruct (IH fuel s1 qs1 t frm cls kept1 (link X) (m ++ answer_calls cls X) seen1 (ret + 1) H1 Q1 C1 ltac:(lia)) as (pre & rest & s' & E1 & E3 & H' & A' & T' & U' & R').
      assert (NI : forall x, In x pre -> x <> c) by (intros x I ->; apply NC; rewrite E1, !in_app_iff; tauto).
      assert (BP : forall x, In x pre -> option_map nolink (hp s1 x) = option_map nolink (hp s x)) by (intros x I; symmetry; apply B; apply NI; exact I).
      exists (c :: pre), rest, s'. cbv zeta.
      assert (CE : calls_of cls (hp s) (c :: pre) = answer_calls cls X ++ calls_of cls (hp s1) pre).
      { unfold calls_of. cbn [flat_map]. f_equal; [unfold at_rec; rewrite E; reflexivity|].
        symmetry. apply flat_ext; [apply answer_calls_nolink|exact BP]. }
      rewrite CE, app_assoc.
      split; [cbn [app]; congruence|]. split; [|split; [|split; [|split; [|split]]]].
      - rewrite E3. f_equal. f_equal; [f_equal|rewrite zlen_cons; lia]. rewrite Se.
        assert (KE : kept_of (hp s1) pre = kept_of (hp s) pre) by (apply holds_ext; [apply tdone_nolink|exact BP]).
        rewrite KE. unfold kept_of; cbn [filter]. rewrite (holds_at _ _ _ _ E). destruct (tdone X); reflexivity.
      - assert (SE : stays (hp s1) pre = stays (hp s) pre) by (apply holds_ext; [apply stays_nolink|exact BP]).
        rewrite SE in H'. eapply rinv_ext; [exact H'|]. intros k. destruct (queue_dec k Publish) as [->|D]; [|rewrite !on_other by exact D; symmetry; apply O1; exact D].
        rewrite !on_same, Ke. unfold stays at 1. cbn [filter]. rewrite (holds_at _ _ _ _ E).
        fold (stays (hp s) pre). destruct (negb (tdone X) && (tries X + 1 <? 4)); [rewrite <- app_assoc; reflexivity|reflexivity].
      - intros x. destruct (Nat.eq_dec x c) as [->|D].
        + rewrite E. unfold upon at 1, mem. cbn [existsb]. rewrite Nat.eqb_refl. cbn [orb]. rewrite <- Ac. rewrite (A' c).
          destruct (hp s1 c) as [Y|]; [|reflexivity]. unfold upon. rewrite (proj2 (mem_false c _)); [reflexivity|]. intros I. apply (NI c I). reflexivity.
        + rewrite (A' x). specialize (B x D). unfold upon, mem. cbn [existsb]. apply Nat.eqb_neq in D. rewrite D. cbn [orb].
          destruct (hp s1 x) as [Y|] eqn:EY, (hp s x) as [Z|] eqn:EZ; cbn in B; try discriminate; [|reflexivity].
          assert (BN : nolink Z = nolink Y) by exact (f_equal (fun o => match o with Some y => y | None => nolink Z end) B).
          pose proof (nolink_fields _ _ BN) as (F1 & F2 & F3 & F4 & F5 & F6). fold (mem x pre).
          destruct (mem x pre); [|cbn [option_map]; congruence].
          unfold published, tdone. rewrite F1. destruct (a_ttl (rr Y) =? 0); [reflexivity|]. cbn [option_map]. f_equal.
          unfold nolink. destruct Y, Z. cbn in *. subst. reflexivity.
      - eapply same_times_trans; [exact T1|exact T'].
      - rewrite U', Un.
        assert (DE : done_of (hp s1) pre = done_of (hp s) pre).
        { unfold done_of. apply holds_ext; [|exact BP].
          intros A B0 K. pose proof (tdone_nolink _ _ K) as K'. destruct (tdone A), (tdone B0); cbn in K'; congruence. }
        rewrite DE. unfold done_of; cbn [filter]. rewrite (holds_at _ _ _ _ E). destruct (tdone X); [apply remove_done_rest|reflexivity].
      - intros x rest' K. destruct (R' x rest' K) as (Y & EY & LY).
        assert (D : x <> c) by (intros ->; apply NC; rewrite E1, K, !in_app_iff; cbn [In]; tauto).
        specialize (B x D). rewrite EY in B. destruct (hp s x) as [Z|] eqn:EZ; [|discriminate]. exists Z. split; [reflexivity|].
        assert (BN : nolink Z = nolink Y) by exact (f_equal (fun o => match o with Some y => y | None => nolink Z end) B).
        apply nolink_fields in BN. destruct BN as (BN & _). rewrite BN. exact LY. }
    destruct (negb (tdone X) && (tries X + 1 <? 4)) eqn:St.
    + apply andb_true_iff in St as St'. destruct St' as [TD T5]. apply negb_true_iff in TD.
      rewrite <- (lastof_snoc kept c). apply (Conc _ qs); clear Conc.
      * eapply rinv_set; [exact H|exact E|reflexivity|reflexivity|].
        split; cbn [unique tries conflict x' set_sent set_tries]; try assumption; try lia; intros; tauto.
      * rewrite <- app_assoc. exact Q.
      * reflexivity.
      * eapply chain_ext; [|exact C]. intros x I. cbn [hp set_hp]. apply hset_other. intros ->. apply NC. apply in_or_app. right. exact I.
      * apply hbut_set.
      * cbn [hp set_hp]. rewrite hset_same. unfold published. rewrite TD. reflexivity.
      * split; reflexivity.
      * rewrite TD. reflexivity.
      * rewrite TD. reflexivity.
      * reflexivity.
    + destruct (unlink_pub s qs kept c l X x' H Q E eq_refl) as (s4 & E4 & Q4 & B4 & C4 & S4 & L4).
      change (set_hp s (hset (hp s) c x')) with (set_hp s (hset (hp s) c x')) in E4. rewrite E4. cbn [bind].
      destruct S4 as (S1 & S2 & S3 & S5 & S6 & S7 & S8).
      assert (O4 : off (on Publish (kept ++ l) qs) c).
      { intros k. destruct (queue_dec k Publish) as [->|D]; [rewrite on_same; exact NC|rewrite on_other by exact D].
        intros I. apply D. exact (qk_disj _ _ (ri_q _ _ H) k Publish c I CI). }
      assert (Live : forall x, hp s x <> None <-> hp s4 x <> None).
      { intros x. destruct (Nat.eq_dec x c) as [->|D]; [rewrite C4, E; split; congruence|]. apply onone. apply B4. exact D. }
      assert (P4 : pok s4).
      { destruct (ri_p _ _ H) as [P1 P2 P3 P4]. split.
        - rewrite S2; exact P1.
        - intros x. rewrite S2, <- Live. apply P2.
        - rewrite S2. exact P3.
        - intros i x Y I EY. rewrite S2 in I. destruct (Nat.eq_dec x c) as [->|D].
          + rewrite C4 in EY. inversion EY; subst. exact (P4 i c X I E).
          + specialize (B4 x D). destruct (osome _ _ _ B4 EY) as (Z & EZ & NZ). apply nolink_fields in NZ. destruct NZ as (NZ & _). rewrite NZ. exact (P4 i x Z I EZ). }
      assert (UA4 : uaok s4) by (intros u I; rewrite S3 in I; apply Live; exact (ri_ua _ _ H u I)).
      assert (U4' : forall x Y, x <> c -> hp s4 x = Some Y -> urec (In x (on Publish (kept ++ l) qs Probing)) (In x (on Publish (kept ++ l) qs Publish)) Y).
      { intros x Y D EY. rewrite on_same, on_other by discriminate. specialize (B4 x D). destruct (osome _ _ _ B4 EY) as (Z & EZ & NZ).
        eapply urec_nolink; [exact (ri_u _ _ H x Z EZ)|exact NZ|reflexivity|]. rewrite Q, !in_app_iff. cbn [In]. split; intros I; [|tauto].
        destruct I as [I|[I|I]]; [tauto|congruence|tauto]. }
      destruct (tdone X) eqn:TD.
      * destruct (r_done_spec s4 _ c _ Q4 P4 UA4 O4 C4 U4') as (s' & E' & H' & Hh & Hf & Hu & _ & T1 & T2 & T3 & T6 & _).
        rewrite E'. cbn [bind]. apply (Conc s' (on Publish (kept ++ l) qs)); clear Conc.
        -- exact H'.
        -- apply on_same.
        -- intros k D. apply on_other. exact D.
        -- rewrite Hh. eapply chain_ext; [|exact L4]. intros x I. apply hdel_other. intros ->. apply NC. apply in_or_app. right. exact I.
        -- intros x D. rewrite Hh, hdel_other by exact D. apply B4. exact D.
        -- rewrite Hh, hdel_same. unfold published. rewrite TD. reflexivity.
        -- split; congruence.
        -- rewrite Hu, S3. reflexivity.
        -- reflexivity.
        -- reflexivity.
      * cbn [bind]. apply (Conc s4 (on Publish (kept ++ l) qs)); clear Conc.
        -- split; [exact Q4|exact P4| |exact UA4]. intros x Y EY. destruct (Nat.eq_dec x c) as [->|D]; [|exact (U4' x Y D EY)].
           rewrite C4 in EY. inversion EY; subst Y. rewrite on_same, on_other by discriminate.
           split; cbn [unique tries conflict x' set_sent set_tries set_link]; try assumption; try lia; intros; try tauto.
           all: try (cbn [negb andb] in St; lia).
        -- apply on_same.
        -- intros k D. apply on_other. exact D.
        -- exact L4.
        -- exact B4.
        -- rewrite C4. unfold published. rewrite TD. reflexivity.
        -- split; congruence.
        -- exact S3.
        -- reflexivity.
        -- cbn [negb andb] in St. reflexivity.
Qed.
