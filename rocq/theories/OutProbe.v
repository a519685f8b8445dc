(* The probes of mdnsd_out. *)
From Verif Require Import Base Lemmas Hash HashProofs Wire Rec Qry Out RecInv RecSafe RecOps RecAddr OutSafe OutPub.

Lemma chain_hd : forall h p l, chain h p l -> p = hd_error l.
Proof. intros h p [|x l] C; cbn [chain] in C; [exact C|apply C]. Qed.

(* One record is taken off the probing queue. *)
Lemma unlink_probe : forall s qs kept c l X x',
  rinv s qs -> qs Probing = kept ++ c :: l -> hp s c = Some X -> link x' = None ->
  exists s3 X3,
    (if ptr_eqb (probing s) (Some c) then Ok (set_head s Probing (link X))
     else match lastof kept with
          | None => Ok s
          | Some k => y <- hget (hp s) k;; Ok (set_hp s (hset (hp s) k (set_link y (link X))))
          end) = Ok s3 /\ hp s3 c = Some X3 /\ X3 = X /\
    let s4 := set_hp s3 (hset (hp s3) c x') in
    qok s4 (on Probing (kept ++ l) qs) /\ hbut c (hp s) (hp s4) /\ hp s4 c = Some x' /\ same_rest s s4.
Proof.
  intros s qs kept c l X x' H Q E Lx. pose proof (ri_q _ _ H) as HQ.
  pose proof (qk_chain _ _ HQ Probing) as C. rewrite Q in C. cbn [head] in C.
  pose proof (qk_nodup _ _ HQ Probing) as ND. rewrite Q in ND.
  assert (ND' : NoDup (kept ++ l)) by (eapply NoDup_remove_1; exact ND).
  assert (NC : ~ In c (kept ++ l)) by (eapply NoDup_remove_2; exact ND).
  assert (Sub : forall k x, In x (on Probing (kept ++ l) qs k) -> In x (qs k)).
  { intros k x. destruct (queue_dec k Probing) as [->|D]; [rewrite on_same, Q|rewrite on_other by exact D; auto].
    rewrite !in_app_iff. cbn [In]. tauto. }
  assert (NDq : forall k, NoDup (on Probing (kept ++ l) qs k)).
  { intros k. destruct (queue_dec k Probing) as [->|D]; [rewrite on_same; exact ND'|rewrite on_other by exact D; apply (qk_nodup _ _ HQ)]. }
  assert (DJ : forall a b x, In x (on Probing (kept ++ l) qs a) -> In x (on Probing (kept ++ l) qs b) -> a = b).
  { intros a b x A B. apply (qk_disj _ _ HQ a b x); auto. }
  assert (CI : In c (qs Probing)) by (rewrite Q; apply in_or_app; right; left; reflexivity).
  destruct (rev kept) as [|k rk] eqn:RK.
  - assert (kept = []) by (rewrite <- (rev_involutive kept), RK; reflexivity). subst kept. cbn [app] in *.
    cbn [chain] in C. destruct C as [Eh (X0 & E0 & C)]. replace X0 with X in * by congruence. clear X0 E0.
    rewrite Eh. cbn [ptr_eqb]. rewrite Nat.eqb_refl. exists (set_head s Probing (link X)), X. split; [reflexivity|].
    split; [exact E|]. split; [reflexivity|]. cbv zeta. cbn [hp set_head].
    set (s4 := set_hp (set_head s Probing (link X)) (hset (hp s) c x')).
    assert (H4 : forall x, x <> c -> hp s4 x = hp s x) by (intros x D; apply hset_other; exact D).
    split; [|split; [|split; [apply hset_same|repeat split]]].
    + split; [| |exact NDq|exact DJ].
      * intros x L. apply (qk_fresh _ _ HQ). destruct (Nat.eq_dec x c) as [->|D]; [congruence|rewrite <- H4 by exact D; exact L].
      * intros q. destruct (queue_dec q Probing) as [->|D].
        -- rewrite on_same. change (head s4 Probing) with (link X). eapply chain_ext; [|exact C]. intros x I. apply H4. intros ->. exact (NC I).
        -- rewrite on_other by exact D. replace (head s4 q) with (head s q) by (destruct q; reflexivity || congruence). eapply chain_ext; [|apply (qk_chain _ _ HQ q)].
           intros x I. apply H4. intros ->. apply D. exact (qk_disj _ _ HQ q Probing c I CI).
    + intros x D. rewrite <- (H4 x D). reflexivity.
  - assert (KE : kept = rev rk ++ [k]) by (rewrite <- (rev_involutive kept), RK; reflexivity). subst kept.
    set (a := rev rk) in *. rewrite <- app_assoc in C, ND, ND', NC. cbn [app] in C, ND, ND', NC.
    assert (Dk : k <> c) by (intros ->; apply NC; apply in_or_app; right; left; reflexivity).
    assert (Lk : hp s k <> None) by (apply (qok_live _ _ Probing k HQ); rewrite Q; apply in_or_app; left; apply in_or_app; right; left; reflexivity).
    destruct (hp s k) as [y|] eqn:Ey; [|congruence].
    replace (ptr_eqb (probing s) (Some c)) with false.
    2:{ symmetry. apply ptr_eqb_neq. intros K. rewrite K in C.
        destruct a as [|x0 a0]; cbn [app chain] in C; destruct C as [C _]; inversion C; subst; [congruence|]. apply NC. left. reflexivity. }
    rewrite lastof_snoc. rewrite (hget_some _ _ _ Ey). cbn [bind].
    set (s3 := set_hp s (hset (hp s) k (set_link y (link X)))). exists s3, X. split; [reflexivity|].
    assert (E3 : hp s3 c = Some X) by (unfold s3; cbn [hp set_hp]; rewrite hset_other by congruence; exact E).
    split; [exact E3|]. split; [reflexivity|]. cbv zeta. set (s4 := set_hp s3 (hset (hp s3) c x')).
    assert (H4c : hp s4 c = Some x') by apply hset_same.
    assert (H4k : hp s4 k = Some (set_link y (link X))) by (unfold s4, s3; cbn [hp set_hp]; rewrite hset_other by exact Dk; apply hset_same).
    assert (H4 : forall x, x <> c -> x <> k -> hp s4 x = hp s x).
    { intros x D1 D2. unfold s4, s3. cbn [hp set_hp]. rewrite !hset_other by assumption. reflexivity. }
    assert (Cu : chain (hp s4) (probing s) (a ++ k :: l)) by (eapply chain_unlink; eauto).
    split; [|split; [|split; [exact H4c|repeat split]]].
    + split; [| |exact NDq|exact DJ].
      * intros x L. apply (qk_fresh _ _ HQ). destruct (Nat.eq_dec x c) as [->|D]; [congruence|].
        destruct (Nat.eq_dec x k) as [->|D']; [congruence|]. rewrite <- H4 by assumption. exact L.
      * intros q. destruct (queue_dec q Probing) as [->|D].
        -- rewrite on_same. rewrite <- app_assoc. exact Cu.
        -- rewrite on_other by exact D. change (head s4 q) with (head s q). eapply chain_ext; [|apply (qk_chain _ _ HQ q)].
           intros x I. apply H4; intros ->; apply D; [exact (qk_disj _ _ HQ q Probing c I CI)|].
           apply (qk_disj _ _ HQ q Probing k I). rewrite Q. apply in_or_app. left. apply in_or_app. right. left. reflexivity.
    + intros x D. destruct (Nat.eq_dec x k) as [->|D']; [rewrite H4k, Ey; reflexivity|rewrite H4 by assumption; reflexivity].
Qed.

(* The records that are asked for, and those whose probing is over. *)
Definition probed (X : mrec) : bool := unique X =? 4.
Definition asked (h : heap) (l : list nat) : list nat := filter (holds h (fun X => negb (probed X))) l.
Definition ready (h : heap) (l : list nat) : list nat := filter (holds h probed) l.
Definition ask_calls (cls : Z) (X : mrec) : list mcall := if probed X then [] else [MQd (a_name (rr X)) (a_type (rr X)) cls].
Definition asks (cls : Z) (h : heap) (l : list nat) : list mcall := flat_map (at_rec h (ask_calls cls)) l.
Definition ask_rec (t : tv) (X : mrec) : option mrec :=
  if probed X then Some (set_modified (set_tries (set_unique X 5) 0) true) else Some (set_sent X t).

Lemma probed_nolink : forall X Y, nolink X = nolink Y -> probed X = probed Y.
Proof. intros X Y H. apply nolink_fields in H. destruct H as (_ & E & _). unfold probed. rewrite E. reflexivity. Qed.
Lemma ask_calls_nolink : forall cls X Y, nolink X = nolink Y -> ask_calls cls X = ask_calls cls Y.
Proof. intros cls X Y H. pose proof (probed_nolink _ _ H) as P. apply nolink_fields in H. destruct H as (E & _). unfold ask_calls. rewrite P, E. reflexivity. Qed.

Definition ask_queues (h : heap) (kept l : list nat) (qs : queue -> list nat) : queue -> list nat :=
  on Publish (rev (ready h l) ++ qs Publish) (on Probing (kept ++ asked h l) qs).

Lemma probe_ask_spec : forall l fuel s qs t cls kept r m,
  rinv s qs -> qs Probing = kept ++ l -> chain (hp s) r l -> (length l < fuel)%nat ->
  exists s', probe_ask fuel s t cls r (lastof kept) m = Ok (s', m ++ asks cls (hp s) l) /\
    rinv s' (ask_queues (hp s) kept l qs) /\ after (upon l (ask_rec t)) (hp s) (hp s') /\
    fresh s' = fresh s /\ pub s' = pub s /\ uans s' = uans s /\ conflicts s' = conflicts s /\ t_pause s' = t_pause s /\ t_probe s' = t_probe s /\
    t_publish s' = (match ready (hp s) l with [] => t_publish s | _ => t end).
Proof.
  induction l as [|c l IH]; intros fuel s qs t cls kept r m H Q C F.
  - destruct fuel as [|fuel]; [cbn in F; lia|]. cbn [chain] in C. subst r. exists s.
    cbn [probe_ask asks flat_map ready filter]. rewrite app_nil_r. split; [reflexivity|]. split; [|split; [apply after_frame; apply hframe_refl|repeat split]].
    eapply rinv_ext; [exact H|]. intros q. unfold ask_queues. cbn [ready asked filter rev app]. rewrite app_nil_r in *.
    destruct (queue_dec q Publish) as [->|D]; [rewrite on_same; reflexivity|rewrite on_other by exact D].
    destruct (queue_dec q Probing) as [->|D']; [rewrite on_same; congruence|rewrite on_other by exact D'; reflexivity].
  - destruct fuel as [|fuel]; [lia|]. cbn [length] in F. cbn [chain] in C. destruct C as [-> (X & E & C)].
    cbn [probe_ask]. rewrite (hget_some _ _ _ E). cbn [bind]. change (unique X =? 4) with (probed X).
    pose proof (qk_nodup _ _ (ri_q _ _ H) Probing) as ND. rewrite Q in ND.
    assert (NC : ~ In c (kept ++ l)) by (eapply NoDup_remove_2; exact ND).
    assert (NL : ~ In c l) by (intros I; apply NC; apply in_or_app; right; exact I).
    assert (CI : In c (qs Probing)) by (rewrite Q; apply in_or_app; right; left; reflexivity).
    pose proof (ri_u _ _ H c X E) as [U1 U2 U3 U4 U5 U6 U7].
    assert (Lk : link X = hd_error l) by (eapply chain_hd; exact C).
    assert (Conc : forall s1 qs1 kept1 m1,
      rinv s1 qs1 -> qs1 Probing = kept1 ++ l -> qs1 Publish = (if probed X then c :: qs Publish else qs Publish) ->
      (forall k, k <> Probing -> k <> Publish -> qs1 k = qs k) ->
      hbut c (hp s) (hp s1) -> option_map nolink (hp s1 c) = option_map nolink (ask_rec t X) ->
      fresh s1 = fresh s /\ pub s1 = pub s /\ uans s1 = uans s /\ conflicts s1 = conflicts s /\ t_pause s1 = t_pause s /\ t_probe s1 = t_probe s ->
      t_publish s1 = (if probed X then t else t_publish s) ->
      kept1 = (if probed X then kept else kept ++ [c]) -> m1 = m ++ ask_calls cls X ->
      exists s', probe_ask fuel s1 t cls (link X) (lastof kept1) m1 = Ok (s', m ++ asks cls (hp s) (c :: l)) /\
        rinv s' (ask_queues (hp s) kept (c :: l) qs) /\ after (upon (c :: l) (ask_rec t)) (hp s) (hp s') /\
        fresh s' = fresh s /\ pub s' = pub s /\ uans s' = uans s /\ conflicts s' = conflicts s /\ t_pause s' = t_pause s /\ t_probe s' = t_probe s /\
        t_publish s' = (match ready (hp s) (c :: l) with [] => t_publish s | _ => t end)).
    { intros s1 qs1 kept1 m1 H1 Q1 P1 O1 B Ac (R1 & R2 & R3 & R4 & R5 & R6) Tp Ke Me.
      assert (C1 : chain (hp s1) (link X) l).
      { pose proof (qk_chain _ _ (ri_q _ _ H1) Probing) as K. rewrite Q1 in K. destruct (chain_app _ _ _ _ K) as (p' & K').
        rewrite Lk. pose proof (chain_hd _ _ _ K') as K2. rewrite <- K2. exact K'. }
      destruct (IH fuel s1 qs1 t cls kept1 (link X) m1 H1 Q1 C1 ltac:(lia)) as (s' & E3 & H' & A' & F1 & F2 & F3 & F4 & F5 & F6 & F7).
      assert (BP : forall x, In x l -> option_map nolink (hp s1 x) = option_map nolink (hp s x)) by (intros x I; symmetry; apply B; intros ->; contradiction).
      assert (RE : ready (hp s1) l = ready (hp s) l) by (apply holds_ext; [apply probed_nolink|exact BP]).
      assert (AE : asked (hp s1) l = asked (hp s) l) by (apply holds_ext; [intros A B0 K; rewrite (probed_nolink _ _ K); reflexivity|exact BP]).
      assert (RC : ready (hp s) (c :: l) = if probed X then c :: ready (hp s) l else ready (hp s) l).
      { unfold ready. cbn [filter]. rewrite (holds_at _ _ _ _ E). reflexivity. }
      assert (AC : asked (hp s) (c :: l) = if probed X then asked (hp s) l else c :: asked (hp s) l).
      { unfold asked. cbn [filter]. rewrite (holds_at _ _ _ _ E). destruct (probed X); reflexivity. }
      exists s'. split; [|split; [|split; [|split; [congruence|split; [congruence|split; [congruence|split; [congruence|split; [congruence|split; [congruence|]]]]]]]]].
      - rewrite E3. f_equal. f_equal. rewrite Me, <- app_assoc. f_equal. unfold asks. cbn [flat_map]. f_equal; [unfold at_rec; rewrite E; reflexivity|].
        apply flat_ext; [apply ask_calls_nolink|exact BP].
      - eapply rinv_ext; [exact H'|]. intros k. unfold ask_queues. rewrite RC, AC, RE, AE, Ke.
        destruct (queue_dec k Publish) as [->|D]; [rewrite !on_same, P1; destruct (probed X); [cbn [rev]; rewrite <- app_assoc; reflexivity|reflexivity]|rewrite !(on_other Publish) by exact D].
        destruct (queue_dec k Probing) as [->|D']; [rewrite !on_same; destruct (probed X); [reflexivity|rewrite <- app_assoc; reflexivity]|rewrite !on_other by exact D'; symmetry; apply O1; assumption].
      - intros x. destruct (Nat.eq_dec x c) as [->|D].
        + rewrite E. unfold upon at 1, mem. cbn [existsb]. rewrite Nat.eqb_refl. cbn [orb]. rewrite <- Ac. rewrite (A' c).
          destruct (hp s1 c) as [Y|]; [|reflexivity]. unfold upon. rewrite (proj2 (mem_false c _)); [reflexivity|exact NL].
        + rewrite (A' x). specialize (B x D). unfold upon, mem. cbn [existsb]. apply Nat.eqb_neq in D. rewrite D. cbn [orb].
          destruct (hp s1 x) as [Y|] eqn:EY, (hp s x) as [Z|] eqn:EZ; cbn in B; try discriminate; [|reflexivity].
          assert (BN : nolink Z = nolink Y) by exact (f_equal (fun o => match o with Some y => y | None => nolink Z end) B).
          pose proof (nolink_fields _ _ BN) as (G1 & G2 & G3 & G4 & G5 & G6). fold (mem x l).
          destruct (mem x l); [|cbn [option_map]; congruence].
          unfold ask_rec, probed. rewrite G2. destruct (unique Y =? 4); cbn [option_map]; f_equal; unfold nolink; destruct Y, Z; cbn in *; subst; reflexivity.
      - rewrite F7, RE, RC, Tp. destruct (probed X); [destruct (ready (hp s) l); reflexivity|reflexivity]. }
    destruct (probed X) eqn:P.
    + destruct (unlink_probe s qs kept c l X (set_unique (set_link X None) 5) H Q E eq_refl) as (s3 & X3 & E3 & EX3 & -> & Q4 & B4 & C4 & S4).
      cbv zeta in *. rewrite E3. cbn [bind]. rewrite (hget_some _ _ _ EX3). cbn [bind].
      set (s4 := set_hp s3 (hset (hp s3) c (set_unique (set_link X None) 5))) in *.
      destruct S4 as (S1 & S2 & S3 & S5 & S6 & S7 & S8).
      assert (P4' : unique X = 4) by (unfold probed in P; lia).
      assert (T0 : tries X = 0) by (apply U4; lia).
      assert (NPub : ~ In c (qs Publish)) by (intros I; pose proof (qk_disj _ _ (ri_q _ _ H) Probing Publish c CI I); discriminate).
      assert (O4 : off (on Probing (kept ++ l) qs) c).
      { intros k. destruct (queue_dec k Probing) as [->|D]; [rewrite on_same; exact NC|rewrite on_other by exact D].
        intros I. apply D. exact (qk_disj _ _ (ri_q _ _ H) k Probing c I CI). }
      assert (Live : forall x, hp s x <> None <-> hp s4 x <> None).
      { intros x. destruct (Nat.eq_dec x c) as [->|D]; [rewrite C4, E; split; congruence|]. apply onone. apply B4. exact D. }
      assert (H4 : rinv s4 (on Probing (kept ++ l) qs)).
      { split; [exact Q4| | |].
        - destruct (ri_p _ _ H) as [P1 P2 P3 P4]. split.
          + rewrite S2; exact P1.
          + intros x. rewrite S2, <- Live. apply P2.
          + rewrite S2. exact P3.
          + intros i x Y I EY. rewrite S2 in I. destruct (Nat.eq_dec x c) as [->|D].
            * rewrite C4 in EY. inversion EY; subst. exact (P4 i c X I E).
            * specialize (B4 x D). destruct (osome _ _ _ B4 EY) as (Z & EZ & NZ). apply nolink_fields in NZ. destruct NZ as (NZ & _). rewrite NZ. exact (P4 i x Z I EZ).
        - intros x Y EY. destruct (Nat.eq_dec x c) as [->|D].
          + rewrite C4 in EY. inversion EY; subst Y. rewrite on_same, on_other by discriminate.
            split; cbn [unique tries conflict set_unique set_link]; try lia; try tauto.
            * split; [lia|]. intros I. contradiction.
            * intros _. apply U3. lia.
          + specialize (B4 x D). destruct (osome _ _ _ B4 EY) as (Z & EZ & NZ). rewrite on_same, on_other by discriminate.
            eapply urec_nolink; [exact (ri_u _ _ H x Z EZ)|exact NZ| |reflexivity]. rewrite Q, !in_app_iff. cbn [In]. split; intros I; [|tauto].
            destruct I as [I|[I|I]]; [tauto|congruence|tauto].
        - intros u I. rewrite S3 in I. apply Live. exact (ri_ua _ _ H u I). }
      destruct (r_publish_full s4 _ t c _ H4 C4 eq_refl) as (s5 & E5 & H5 & F5). rewrite E5. cbn [bind].
      destruct F5 as [(G1 & G2 & G3 & G4 & G5 & G6 & G7) F5]. cbn [announced set_tpublish set_hp hp fresh pub uans t_pause t_probe t_publish conflicts] in *.
      apply (Conc s5 (enq Publish c (on Probing (kept ++ l) qs)) kept m); clear Conc.
      * exact H5.
      * unfold enq. cbn [queue_eqb]. rewrite on_same. apply remove1_notin. exact NC.
      * unfold enq. cbn [queue_eqb]. rewrite on_other by discriminate. destruct (in_dec Nat.eq_dec c (qs Publish)); [contradiction|reflexivity].
      * intros k D1 D2. unfold enq. rewrite queue_eqb_neq by exact D2. rewrite on_other by exact D1. apply remove1_notin.
        intros I. apply D1. exact (qk_disj _ _ (ri_q _ _ H) k Probing c I CI).
      * eapply hbut_trans; [exact B4|]. eapply hbut_frame_r; [apply hbut_set|exact F5].
      * rewrite <- (F5 c). rewrite hset_same. unfold ask_rec. rewrite P. reflexivity.
      * repeat split; congruence.
      * exact G6.
      * reflexivity.
      * unfold ask_calls. rewrite P. symmetry. apply app_nil_r.
    + rewrite <- (lastof_snoc kept c). apply (Conc _ qs); clear Conc.
      * eapply rinv_set; [exact H|exact E|reflexivity|reflexivity|]. split; cbn [unique tries conflict set_sent]; assumption.
      * rewrite <- app_assoc. exact Q.
      * reflexivity.
      * reflexivity.
      * apply hbut_set.
      * cbn [hp set_hp]. rewrite hset_same. unfold ask_rec. rewrite P. reflexivity.
      * repeat split.
      * reflexivity.
      * reflexivity.
      * unfold ask_calls. rewrite P. reflexivity.
Qed.

(* ------------------------------------------------------------------ *)
(* The proposed records *)

Definition tell_calls (cls : Z) (X : mrec) : list mcall :=
  MRr SNs (a_name (rr X)) (a_type (rr X)) cls (a_ttl (rr X)) :: a_copy (rr X).
Definition tells (cls : Z) (h : heap) (l : list nat) : list mcall := flat_map (at_rec h (tell_calls cls)) l.
Definition tell_rec (t : tv) (X : mrec) : option mrec := Some (set_sent (set_unique X (unique X + 1)) t).
Lemma tell_calls_nolink : forall cls X Y, nolink X = nolink Y -> tell_calls cls X = tell_calls cls Y.
Proof. intros cls X Y H. apply nolink_fields in H. destruct H as (E & _). unfold tell_calls. rewrite E. reflexivity. Qed.

Lemma probe_tell_spec : forall l fuel s qs t cls r m ret,
  rinv s qs -> (exists kept, qs Probing = kept ++ l) -> chain (hp s) r l -> (length l < fuel)%nat ->
  (forall x X, In x l -> hp s x = Some X -> probed X = false) ->
  exists s', probe_tell fuel s t cls r m ret = Ok (s', m ++ tells cls (hp s) l, ret + zlen l) /\
    rinv s' qs /\ after (upon l (tell_rec t)) (hp s) (hp s') /\
    fresh s' = fresh s /\ pub s' = pub s /\ uans s' = uans s /\ conflicts s' = conflicts s /\ t_pause s' = t_pause s /\ t_probe s' = t_probe s /\
    t_publish s' = t_publish s.
Proof.
  induction l as [|c l IH]; intros fuel s qs t cls r m ret H (kept & Q) C F P.
  - destruct fuel as [|fuel]; [cbn in F; lia|]. cbn [chain] in C. subst r. exists s.
    cbn [probe_tell tells flat_map]. rewrite app_nil_r, zlen_nil, Z.add_0_r. split; [reflexivity|]. split; [exact H|].
    split; [apply after_frame; apply hframe_refl|repeat split].
  - destruct fuel as [|fuel]; [lia|]. cbn [length] in F. cbn [chain] in C. destruct C as [-> (X & E & C)].
    cbn [probe_tell]. rewrite (hget_some _ _ _ E). cbn [bind]. cbv zeta.
    pose proof (qk_nodup _ _ (ri_q _ _ H) Probing) as ND. rewrite Q in ND.
    assert (NL : ~ In c l) by (intros I; apply (NoDup_remove_2 _ _ _ ND); apply in_or_app; right; exact I).
    assert (CI : In c (qs Probing)) by (rewrite Q; apply in_or_app; right; left; reflexivity).
    pose proof (ri_u _ _ H c X E) as [U1 U2 U3 U4 U5 U6 U7]. pose proof (P c X (or_introl eq_refl) E) as PX. unfold probed in PX.
    pose proof (proj2 U2 CI) as U14.
    set (s1 := set_hp s (hset (hp s) c (set_sent (set_unique X (unique X + 1)) t))).
    assert (H1 : rinv s1 qs).
    { eapply rinv_set; [exact H|exact E|reflexivity|reflexivity|]. split; cbn [unique tries conflict set_sent set_unique]; try lia; try assumption.
      - split; [intros _; exact CI|lia].
      - intros _. apply U3. lia. }
    assert (O1 : forall x, x <> c -> hp s1 x = hp s x) by (intros x D; apply hset_other; exact D).
    assert (C1 : chain (hp s1) (link X) l) by (eapply chain_ext; [|exact C]; intros x I; apply O1; intros ->; contradiction).
    destruct (IH fuel s1 qs t cls (link X) (m ++ tell_calls cls X) (ret + 1) H1) as (s' & E' & H' & A' & R).
    + exists (kept ++ [c]). rewrite <- app_assoc. exact Q.
    + exact C1.
    + lia.
    + intros x Y I EY. apply (P x Y); [right; exact I|]. rewrite <- (O1 x); [exact EY|intros ->; contradiction].
    + exists s'. split; [|split; [exact H'|split; [|exact R]]].
      * unfold tell_calls in E'. rewrite E'. f_equal. f_equal; [f_equal|rewrite zlen_cons; lia].
        rewrite <- app_assoc. f_equal. unfold tells. cbn [flat_map]. f_equal; [unfold at_rec; rewrite E; reflexivity|].
        apply flat_ext; [apply tell_calls_nolink|]. intros x I. rewrite (O1 x); [reflexivity|intros ->; contradiction].
      * intros x. rewrite (A' x). destruct (Nat.eq_dec x c) as [->|D].
        -- rewrite E. unfold s1. cbn [hp set_hp]. rewrite hset_same. unfold upon. rewrite (proj2 (mem_false c l) NL).
           replace (mem c (c :: l)) with true by (symmetry; apply mem_iff; left; reflexivity). reflexivity.
        -- rewrite (O1 x D). destruct (hp s x) as [Z|]; [|reflexivity]. unfold upon, mem. cbn [existsb]. apply Nat.eqb_neq in D. rewrite D. reflexivity.
Qed.

(* ------------------------------------------------------------------ *)
(* out_probe *)

Lemma asked_in : forall h l x, In x (asked h l) <-> In x l /\ exists X, h x = Some X /\ probed X = false.
Proof.
  intros h l x. unfold asked. rewrite filter_In. unfold holds. destruct (h x) as [X|] eqn:E.
  - rewrite negb_true_iff. split; intros [I K]; (split; [exact I|]); [exists X; auto|]. destruct K as (Y & K1 & K2). inversion K1; subst. exact K2.
  - split; intros [I K]; [discriminate|]. destruct K as (Y & K1 & _). discriminate.
Qed.

Definition probe_rec (t : tv) (X : mrec) : option mrec :=
  if probed X then Some (set_modified (set_tries (set_unique X 5) 0) true) else Some (set_sent (set_unique X (unique X + 1)) t).

Lemma asked_tells : forall cls h h' l, (forall x X, In x l -> h x = Some X -> probed X = false -> exists X', h' x = Some X' /\ rr X' = rr X) ->
  tells cls h' (asked h l) = flat_map (at_rec h (fun X => if probed X then [] else tell_calls cls X)) l.
Proof.
  intros cls h h' l H. induction l as [|x l IH]; [reflexivity|]. unfold asked. cbn [filter flat_map]. fold (asked h l).
  unfold holds, at_rec at 1. destruct (h x) as [X|] eqn:E; [|cbn [app]; apply IH; intros y Y I; apply H; right; exact I].
  destruct (probed X) eqn:P; cbn [negb app]; [apply IH; intros y Y I; apply H; right; exact I|].
  unfold tells. cbn [flat_map]. fold (tells cls h' (asked h l)). rewrite IH by (intros y Y I; apply H; right; exact I).
  f_equal. destruct (H x X (or_introl eq_refl) E P) as (X' & E' & R). unfold at_rec. rewrite E'. unfold tell_calls. rewrite R. reflexivity.
Qed.

Lemma out_probe_spec : forall s qs t cls m, rinv s qs ->
  let l := if tvdiff t (t_probe s) <=? 0 then qs Probing else [] in
  exists s', out_probe s t cls m =
      Ok (s', m ++ asks cls (hp s) l ++ flat_map (at_rec (hp s) (fun X => if probed X then [] else tell_calls cls X)) l, zlen (asked (hp s) l)) /\
    rinv s' (if tvdiff t (t_probe s) <=? 0 then ask_queues (hp s) [] l qs else qs) /\ after (upon l (probe_rec t)) (hp s) (hp s') /\
    fresh s' = fresh s /\ pub s' = pub s /\ uans s' = uans s /\ conflicts s' = conflicts s /\ t_pause s' = t_pause s /\
    t_probe s' = (match asked (hp s) l with [] => t_probe s | _ => (fst t, snd t + 250000) end) /\
    t_publish s' = (match ready (hp s) l with [] => t_publish s | _ => t end).
Proof.
  intros s qs t cls m H l. unfold out_probe.
  pose proof (qk_chain _ _ (ri_q _ _ H) Probing) as C. cbn [head] in C.
  assert (Nil : l = [] -> out_probe s t cls m = Ok (s, m, 0) -> exists s', out_probe s t cls m =
      Ok (s', m ++ asks cls (hp s) l ++ flat_map (at_rec (hp s) (fun X => if probed X then [] else tell_calls cls X)) l, zlen (asked (hp s) l)) /\
    rinv s' (if tvdiff t (t_probe s) <=? 0 then ask_queues (hp s) [] l qs else qs) /\ after (upon l (probe_rec t)) (hp s) (hp s') /\
    fresh s' = fresh s /\ pub s' = pub s /\ uans s' = uans s /\ conflicts s' = conflicts s /\ t_pause s' = t_pause s /\
    t_probe s' = (match asked (hp s) l with [] => t_probe s | _ => (fst t, snd t + 250000) end) /\
    t_publish s' = (match ready (hp s) l with [] => t_publish s | _ => t end)).
  { intros L E. exists s. rewrite L. cbn [asks flat_map app asked ready filter]. rewrite app_nil_r, zlen_nil. split; [exact E|].
    split; [|split; [apply after_frame; apply hframe_refl|repeat split]].
    destruct (tvdiff t (t_probe s) <=? 0) eqn:D; [|exact H]. assert (Q0 : qs Probing = []) by exact L.
    eapply rinv_ext; [exact H|]. intros q. unfold ask_queues. cbn [ready asked filter rev app].
    destruct (queue_dec q Publish) as [->|N]; [rewrite on_same; reflexivity|rewrite on_other by exact N].
    destruct (queue_dec q Probing) as [->|N']; [rewrite on_same; congruence|rewrite on_other by exact N'; reflexivity]. }
  fold (out_probe s t cls m). destruct (probing s) as [p|] eqn:EP.
  2:{ apply Nil; [|unfold out_probe; rewrite EP; reflexivity]. unfold l. destruct (qs Probing) as [|x y]; [destruct (_ <=? 0); reflexivity|]. cbn [chain] in C. destruct C as [C _]. discriminate. }
  destruct (tvdiff t (t_probe s) <=? 0) eqn:D.
  2:{ apply Nil; [reflexivity|unfold out_probe; rewrite EP, D; reflexivity]. }
  clear Nil. unfold out_probe. rewrite EP, D. subst l. rewrite EP in C || idtac.
  pose proof (qok_fuel _ _ Probing (ri_q _ _ H)) as Fu.
  destruct (probe_ask_spec (qs Probing) (qfuel s) s qs t cls [] (Some p) m H eq_refl C Fu) as (s1 & E1 & H1 & A1 & F1 & F2 & F3 & F4 & F5 & F6 & F7).
  change (lastof []) with (@None nat) in E1. rewrite E1. cbn [bind].
  assert (Q1 : ask_queues (hp s) [] (qs Probing) qs Probing = asked (hp s) (qs Probing)).
  { unfold ask_queues. rewrite on_other by discriminate. rewrite on_same. reflexivity. }
  pose proof (qk_chain _ _ (ri_q _ _ H1) Probing) as C1. rewrite Q1 in C1. cbn [head] in C1.
  pose proof (qok_fuel _ _ Probing (ri_q _ _ H1)) as Fu1. rewrite Q1 in Fu1.
  assert (AX : forall x X, In x (asked (hp s) (qs Probing)) -> hp s1 x = Some X -> exists X0, hp s x = Some X0 /\ probed X0 = false /\ nolink X = nolink (set_sent X0 t)).
  { intros x X I E. apply asked_in in I. destruct I as [I (X0 & E0 & P0)]. exists X0. split; [exact E0|]. split; [exact P0|].
    pose proof (after_some _ _ _ _ _ A1 E0) as K. rewrite E in K. unfold upon in K. rewrite (proj2 (mem_iff _ _) I) in K. unfold ask_rec in K. rewrite P0 in K.
    exact (f_equal (fun o => match o with Some y => y | None => nolink X end) K). }
  destruct (probe_tell_spec (asked (hp s) (qs Probing)) (qfuel s1) s1 _ t cls (probing s1) (m ++ asks cls (hp s) (qs Probing)) 0 H1) as (s2 & E2 & H2 & A2 & G1 & G2 & G3 & G4 & G5 & G6 & G7).
  - exists []. exact Q1.
  - exact C1.
  - exact Fu1.
  - intros x X I E. destruct (AX x X I E) as (X0 & _ & P0 & N). apply nolink_fields in N. destruct N as (_ & N & _). unfold probed in *. rewrite N. exact P0.
  - rewrite E2. cbn [bind]. rewrite Z.add_0_l.
    assert (TE : tells cls (hp s1) (asked (hp s) (qs Probing)) = flat_map (at_rec (hp s) (fun X => if probed X then [] else tell_calls cls X)) (qs Probing)).
    { apply asked_tells. intros x X I E P. pose proof (after_some _ _ _ _ _ A1 E) as K. unfold upon in K. rewrite (proj2 (mem_iff _ _) I) in K. unfold ask_rec in K. rewrite P in K.
      destruct (hp s1 x) as [X'|] eqn:E'; [|discriminate]. exists X'. split; [reflexivity|].
      assert (N : nolink X' = nolink (set_sent X t)) by exact (f_equal (fun o => match o with Some y => y | None => nolink X end) K).
      apply nolink_fields in N. destruct N as (N & _). exact N. }
    exists (if zlen (asked (hp s) (qs Probing)) =? 0 then s2 else set_tprobe s2 (fst t, snd t + 250000)).
    assert (AF : after (upon (qs Probing) (probe_rec t)) (hp s) (hp s2)).
    { intros x. rewrite (A2 x). destruct (hp s x) as [X|] eqn:E.
      - pose proof (after_some _ _ _ _ _ A1 E) as K. unfold upon in *. destruct (mem x (qs Probing)) eqn:M.
        + unfold ask_rec in K. unfold probe_rec. destruct (probed X) eqn:P.
          * destruct (hp s1 x) as [X'|] eqn:E'; [|discriminate]. replace (mem x (asked (hp s) (qs Probing))) with false; [exact K|].
            symmetry. apply mem_false. rewrite asked_in. intros (_ & Y & EY & PY). congruence.
          * destruct (hp s1 x) as [X'|] eqn:E'; [|discriminate]. replace (mem x (asked (hp s) (qs Probing))) with true.
            2:{ symmetry. apply mem_iff. rewrite asked_in. apply mem_iff in M. split; [exact M|]. exists X. auto. }
            assert (N : nolink X' = nolink (set_sent X t)) by exact (f_equal (fun o => match o with Some y => y | None => nolink X end) K).
            pose proof (nolink_fields _ _ N) as (N1 & N2 & N3 & N4 & N5 & N6). unfold tell_rec. cbn [option_map]. f_equal.
            unfold nolink. destruct X, X'. cbn in *. subst. reflexivity.
        + destruct (hp s1 x) as [X'|] eqn:E'; [|discriminate]. replace (mem x (asked (hp s) (qs Probing))) with false; [exact K|].
          symmetry. apply mem_false. rewrite asked_in. apply mem_false in M. tauto.
      - rewrite (after_none _ _ _ _ A1 E). reflexivity. }
    rewrite <- TE, app_assoc.
    destruct (asked (hp s) (qs Probing)) as [|a0 al] eqn:AS.
    + rewrite zlen_nil. cbn [Z.eqb]. split; [reflexivity|]. split; [exact H2|]. split; [exact AF|]. repeat split; congruence.
    + assert (ZN : (zlen (a0 :: al) =? 0) = false) by (rewrite zlen_cons; pose proof (zlen_nonneg _ al); lia). rewrite ZN.
      split; [reflexivity|]. split; [eapply rinv_other; [exact H2|reflexivity..|intros []; reflexivity]|]. split; [exact AF|].
      cbn [fresh pub uans conflicts t_pause t_probe t_publish set_tprobe]. repeat split; congruence.
Qed.
