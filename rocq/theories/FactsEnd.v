(* mdnsd_shutdown and the goodbyes when records are still queued elsewhere. *)
From Verif Require Import Base Lemmas Hash HashProofs Wire Rec Qry Out In Api RecInv RecSafe RecOps RecAddr OutSafe OutPub OutExtra QryInv QryOps CacheOps QryLoop OutSpec Shut DaemonInv SpecDaemon SpecLife FactsCalls FactsItems FactsOut FactsFrame FactsSize FactsLife FactsBye Step SpecStep FactsStep Free SpecFree FreeProofs SpecEnd.

(* ------------------------------------------------------------------ *)
(* The tables *)
Lemma pok_like s s' : pok s -> pub s' = pub s -> (forall x, match hp s x, hp s' x with Some X, Some Y => a_name (rr Y) = a_name (rr X) | None, None => True | _, _ => False end) -> pok s'.
Proof.
  intros [A B C D] P F. split; rewrite ?P; auto.
  - intros x. rewrite <- B. specialize (F x). destruct (hp s x), (hp s' x); try contradiction; split; congruence.
  - intros i x Y I EY. specialize (F x). rewrite EY in F. destruct (hp s x) as [X|] eqn:EX; [|destruct F]. rewrite F. exact (D i x X I EX).
Qed.
Lemma r_done_pok s r X : pok s -> hp s r = Some X -> exists s', r_done s r = Ok s' /\ pok s' /\ hp s' = hdel (hp s) r /\ fresh s' = fresh s /\ uans s' = filter (fun u => negb (Nat.eqb (u_r u) r)) (uans s) /\
  (forall q, head s' q = head s q) /\ t_publish s' = t_publish s.
Proof.
  intros HP E. unfold r_done. rewrite (hget_some _ _ _ E). cbn [bind].
  eexists. split; [reflexivity|]. split; [|repeat split; try reflexivity; intros []; reflexivity].
  pose proof (pok_in s r X HP E) as IR. unfold chain_of in IR. set (i := rbucket (a_name (rr X))) in *.
  assert (Li : (i < length (pub s))%nat) by (rewrite (pk_len _ HP); apply rbucket_lt).
  pose proof (pok_chain_nodup s (a_name (rr X)) HP) as NB. unfold chain_of in NB. fold i in NB.
  split; cbn [hp set_hp set_pub u_remove set_uans pub].
  - rewrite upd_length. apply (pk_len _ HP).
  - intros x. rewrite in_upd by exact Li. rewrite remove1_in_iff by exact NB. destruct (Nat.eq_dec x r) as [->|N].
    + rewrite hdel_same. split; [congruence|]. intros [[_ ?]|(j & D & I)]; [congruence|].
      exfalso. apply D. symmetry. exact (pk_bucket _ HP j r X I E).
    + rewrite hdel_other by exact N. rewrite (pk_live _ HP x), in_concat_nth. split.
      * intros [j I]. destruct (Nat.eq_dec j i) as [->|D]; [left; auto|right; exists j; auto].
      * intros [[I _]|(j & _ & I)]; eexists; exact I.
  - apply nodup_concat_sub; [apply (pk_nodup _ HP)|apply remove1_nodup; exact NB|].
    intros x I. eapply remove1_in. exact I.
  - intros j x Y I EY. destruct (Nat.eq_dec x r) as [->|N]; [rewrite hdel_same in EY; discriminate|].
    rewrite hdel_other in EY by exact N. destruct (Nat.eq_dec i j) as [<-|D].
    + rewrite nth_upd_same in I by exact Li. apply remove1_in in I. exact (pk_bucket _ HP i x Y I EY).
    + rewrite nth_upd_other in I by exact D. exact (pk_bucket _ HP j x Y I EY).
Qed.

(* ------------------------------------------------------------------ *)
(* The state while the goodbyes are sent: [order] is the list of answers, and the
   other lists begin somewhere in it. *)
Record ending (h0 : heap) (s : recs) (order : list nat) : Prop := mkending {
  en_chain : chain (hp s) (a_now s) order;
  en_nodup : NoDup order;
  en_live : forall r, hp s r <> None <-> In r order;
  en_fresh : forall r, In r order -> (r < fresh s)%nat;
  en_heads : forall k x, k <> Now -> head s k = Some x -> In x order;
  en_pok : pok s;
  en_ua : forall u, In u (uans s) -> hp s (u_r u) <> None;
  en_same : forall r X, hp s r = Some X -> exists X0, h0 r = Some X0 /\ rr X = set_ttl (rr X0) 0 /\ unique X = unique X0
}.

Lemma chain_from : forall h l p x, chain h p l -> In x l -> exists a b, l = a ++ x :: b /\ chain h (Some x) (x :: b).
Proof.
  intros h l. induction l as [|y l IH]; intros p x C I; [destruct I|]. cbn [chain] in C. destruct C as (-> & Y & EY & C). destruct (Nat.eq_dec y x) as [->|D].
  - exists [], l. split; [reflexivity|]. cbn [chain]. eauto.
  - destruct I as [I|I]; [contradiction|]. destruct (IH _ _ C I) as (a & b & -> & Cb). exists (y :: a), b. split; [reflexivity|exact Cb].
Qed.
Lemma remove_absent : forall l fuel h p r, chain h p l -> NoDup l -> (length l < fuel)%nat -> ~ In r l -> remove_loop fuel h p r = Ok h.
Proof.
  induction l as [|x l IH]; intros fuel h p r C N L A; (destruct fuel as [|fuel]; [cbn [length] in L; lia|]); cbn [chain] in C.
  - subst p. reflexivity.
  - destruct C as (-> & X & EX & C). apply NoDup_cons_iff in N as (N1 & N2). cbn [remove_loop]. rewrite (hget_some _ _ _ EX). cbn [bind].
    assert (Hl : forall y, link X = Some y -> In y l) by (intros y Ey; rewrite Ey in C; destruct l; cbn [chain] in C; [discriminate|destruct C as (Ey' & _); injection Ey' as ->; left; reflexivity]).
    destruct (ptr_eqb (link X) (Some r)) eqn:B1; [apply ptr_eqb_eq in B1; exfalso; apply A; right; exact (Hl r B1)|].
    destruct (ptr_eqb (link X) (Some x)) eqn:B2; [apply ptr_eqb_eq in B2; exfalso; apply N1; exact (Hl x B2)|].
    apply IH; [exact C|exact N2|cbn [length] in L; lia|]. intros I. apply A. right. exact I.
Qed.
Lemma short_list (l : list nat) n : NoDup l -> (forall x, In x l -> (x < n)%nat) -> (length l <= n)%nat.
Proof. intros N B. rewrite <- (seq_length n 0). apply NoDup_incl_length; [exact N|]. intros x I. apply in_seq. specialize (B x I). lia. Qed.

(* One of the other lists, when r is about to go *)
Record freeing (r : nat) (s : recs) (l : list nat) : Prop := mkfreeing {
  fg_chain : chain (hp s) (a_now s) l;
  fg_nodup : NoDup (r :: l);
  fg_rec : exists X, hp s r = Some X /\ forall y, link X = Some y -> In y l;
  fg_fresh : forall x, In x l -> (x < fresh s)%nat;
  fg_heads : forall k x, k <> Now -> head s k = Some x -> In x (r :: l)
}.
Lemma remove_one r s l q : q <> Now -> freeing r s l -> exists s', remove_unless s (Some Now) q r = Ok s' /\ freeing r s' l /\ hframe (hp s) (hp s') /\ (forall x, x <> r -> hp s' x = hp s x) /\
  head s' q <> Some r /\ (forall k, k <> q -> head s' k = head s k) /\ (head s q = None -> head s' q = None) /\ pub s' = pub s /\ fresh s' = fresh s /\ uans s' = uans s /\ t_publish s' = t_publish s.
Proof.
  intros Nq [C N (X & EX & Lk) B Hd]. unfold remove_unless. destruct (head s q) as [p|] eqn:Eq.
  2:{ exists s. split; [reflexivity|]. split; [split; eauto|]. split; [apply hframe_refl|]. split; [reflexivity|]. split; [congruence|]. repeat split; auto. }
  rewrite (queue_eqb_neq _ _ Nq). unfold r_remove_list. rewrite Eq. apply NoDup_cons_iff in N as (N1 & N2). destruct (ptr_eqb (Some p) (Some r)) eqn:Bp.
  - apply ptr_eqb_eq in Bp. injection Bp as ->. rewrite (hget_some _ _ _ EX). cbn [bind]. eexists. split; [reflexivity|].
    assert (Lr : link X <> Some r) by (intros K; apply N1; exact (Lk r K)).
    split; [split|].
    + change (hp (set_hp (set_head s q (link X)) (hset (hp s) r (set_link X None)))) with (hset (hp s) r (set_link X None)).
      replace (a_now (set_hp (set_head s q (link X)) (hset (hp s) r (set_link X None)))) with (a_now s) by (destruct q; try reflexivity; contradiction).
      eapply chain_ext; [|exact C]. intros x I. apply hset_other. intros ->. contradiction.
    + constructor; assumption.
    + exists (set_link X None). split; [apply hset_same|]. discriminate.
    + exact B.
    + intros k x Nk. rewrite head_hp. destruct (queue_dec k q) as [->|D]; [rewrite head_set_same; intros K; right; exact (Lk x K)|rewrite head_set_other by exact D; apply Hd; exact Nk].
    + split; [apply hframe_set; exact EX|]. split; [intros x D; apply hset_other; exact D|]. rewrite !head_hp, head_set_same. split; [exact Lr|]. split; [intros k D; rewrite head_hp; apply head_set_other; exact D|].
      split; [discriminate|]. repeat split; destruct q; reflexivity.
  - apply ptr_eqb_neq in Bp. pose proof (Hd q p Nq Eq) as Ip. destruct Ip as [Ip|Ip]; [congruence|].
    destruct (chain_from _ _ _ _ C Ip) as (a & b & El & Cb). assert (Nb : NoDup (p :: b)) by (rewrite El in N2; clear - N2; induction a as [|y a IHa]; [exact N2|]; apply IHa; cbn [app] in N2; apply NoDup_cons_iff in N2; apply N2).
    rewrite (remove_absent (p :: b) (qfuel s) (hp s) (Some p) r Cb Nb).
    + cbn [bind]. eexists. split; [reflexivity|]. replace (set_hp s (hp s)) with s by (destruct s; reflexivity).
      split; [split; eauto; constructor; assumption|]. split; [apply hframe_refl|]. split; [reflexivity|]. split; [congruence|]. repeat split; auto; congruence.
    + unfold qfuel. apply Nat.lt_succ_r. apply short_list; [exact Nb|]. intros x I. apply B. rewrite El. apply in_or_app. right. exact I.
    + intros I. apply N1. rewrite El. apply in_or_app. right. exact I.
Qed.
Lemma remove_all r s l : freeing r s l -> exists s', r_remove_lists s r (Some Now) = Ok s' /\ chain (hp s') (a_now s') l /\ hframe (hp s) (hp s') /\ (forall x, x <> r -> hp s' x = hp s x) /\
  (forall k x, k <> Now -> head s' k = Some x -> In x l) /\ a_now s' = a_now s /\ (forall k, head s k = None -> head s' k = None) /\ pub s' = pub s /\ fresh s' = fresh s /\ uans s' = uans s /\ t_publish s' = t_publish s.
Proof.
  intros F. unfold r_remove_lists.
  destruct (remove_one r s l Probing ltac:(discriminate) F) as (s1 & E1 & F1 & A1 & B1 & C1 & D1 & G1 & P1 & Q1 & U1 & T1). rewrite E1. cbn [bind].
  assert (E2 : remove_unless s1 (Some Now) Now r = Ok s1) by (unfold remove_unless; destruct (head s1 Now); reflexivity). rewrite E2. cbn [bind].
  destruct (remove_one r s1 l Pause ltac:(discriminate) F1) as (s3 & E3 & F3 & A3 & B3 & C3 & D3 & G3 & P3 & Q3 & U3 & T3). rewrite E3. cbn [bind].
  destruct (remove_one r s3 l Publish ltac:(discriminate) F3) as (s4 & E4 & F4 & A4 & B4 & C4 & D4 & G4 & P4 & Q4 & U4 & T4). rewrite E4.
  exists s4. split; [reflexivity|]. split; [apply (fg_chain _ _ _ F4)|]. split; [eapply hframe_trans; [exact A1|]; eapply hframe_trans; eassumption|].
  split; [intros x D; rewrite B4, B3, B1 by exact D; reflexivity|]. split.
  { intros k x Nk Ek. assert (J := fg_heads _ _ _ F4 k x Nk Ek). destruct J as [<-|J]; [exfalso|exact J].
    destruct k; [rewrite (D4 Probing), (D3 Probing) in Ek by discriminate; exact (C1 Ek)|contradiction|rewrite (D4 Pause) in Ek by discriminate; exact (C3 Ek)|exact (C4 Ek)]. }
  split; [change (head s4 Now = head s Now); rewrite D4, D3, D1 by discriminate; reflexivity|]. split.
  { intros k Ek. destruct k.
    - rewrite (D4 Probing), (D3 Probing) by discriminate. apply G1. exact Ek.
    - rewrite (D4 Now), (D3 Now), (D1 Now) by discriminate. exact Ek.
    - rewrite (D4 Pause) by discriminate. apply G3. rewrite (D1 Pause) by discriminate. exact Ek.
    - apply G4. rewrite (D3 Publish), (D1 Publish) by discriminate. exact Ek. }
  repeat split; congruence.
Qed.

(* ------------------------------------------------------------------ *)
(* The list of answers *)
Lemma calls_at cls h h' l : (forall x, In x l -> h' x = h x) -> calls_of cls h' l = calls_of cls h l.
Proof. intros S. unfold calls_of. induction l as [|x l IH]; [reflexivity|]. cbn [flat_map]. rewrite IH by (intros y I; apply S; right; exact I). unfold at_rec. rewrite (S x (or_introl eq_refl)). reflexivity. Qed.
Lemma r_out_ending h0 t frm cls : forall order fuel s m seen ret, ending h0 s order -> (length order < fuel)%nat ->
  exists N rest s', order = N ++ rest /\ r_out fuel s t frm cls false Now m seen ret = Ok (s', m ++ calls_of cls (hp s) N, seen, ret + zlen N) /\ ending h0 s' rest /\
    t_publish s' = t_publish s /\ fresh s' = fresh s /\ (forall k, head s k = None -> head s' k = None) /\ (uans s = [] -> uans s' = []) /\
    forall x rest', rest = x :: rest' -> exists X, hp s x = Some X /\ frm <= mlen (m ++ calls_of cls (hp s) N) + rr_len (rr X).
Proof.
  induction order as [|r l IH]; intros fuel s m seen ret En F; (destruct fuel as [|fuel]; [cbn [length] in F; lia|]); pose proof (en_chain _ _ _ En) as C; cbn [chain] in C.
  - exists [], [], s. cbn [r_out head]. rewrite C. change (calls_of cls (hp s) []) with (@nil mcall). rewrite !app_nil_r, zlen_nil, Z.add_0_r. split; [reflexivity|]. split; [reflexivity|]. split; [exact En|]. repeat split; auto. discriminate.
  - destruct C as (Eh & X & EX & C). cbn [r_out head]. rewrite Eh, (hget_some _ _ _ EX). cbn [bind]. cbn [length] in F. pose proof (en_nodup _ _ _ En) as N. assert (N' := N). apply NoDup_cons_iff in N' as (N1 & N2).
    destruct (mlen m + rr_len (rr X) <? frm) eqn:Fit.
    2:{ exists [], (r :: l), s. change (calls_of cls (hp s) []) with (@nil mcall). rewrite !app_nil_r, zlen_nil, Z.add_0_r. split; [reflexivity|]. split; [reflexivity|]. split; [exact En|]. repeat split; auto.
        intros x rest' K. injection K as <- _. exists X. split; [exact EX|lia]. }
    assert (Hl : forall y, link X = Some y -> In y l) by (intros y Ey; rewrite Ey in C; destruct l; cbn [chain] in C; [discriminate|destruct C as (Ey' & _); injection Ey' as ->; left; reflexivity]).
    replace (ptr_eqb (link X) (Some r)) with false by (symmetry; apply ptr_eqb_neq; intros K; apply N1; exact (Hl r K)).
    cbn [andb]. destruct (en_same _ _ _ En r X EX) as (X0 & E0 & Er & Eu). replace (a_ttl (rr X) =? 0) with true by (rewrite Er; reflexivity).
    set (s1 := set_hp (set_head s Now (link X)) (hset (hp (set_head s Now (link X))) r (set_modified (set_sent X t) false))).
    assert (Fr : freeing r s1 l).
    { split.
      - cbn [s1 set_hp set_head hp a_now]. eapply chain_ext; [|exact C]. intros x I. apply hset_other. intros ->. contradiction.
      - exact N.
      - exists (set_modified (set_sent X t) false). split; [apply hset_same|exact Hl].
      - intros x I. apply (en_fresh _ _ _ En). right. exact I.
      - intros k x Nk Ek. apply (en_heads _ _ _ En k x Nk). unfold s1 in Ek. rewrite head_hp, head_set_other in Ek by exact Nk. exact Ek. }
    destruct (remove_all r s1 l Fr) as (s2 & E2 & C2 & A2 & B2 & H2 & Nw & G2 & P2 & Q2 & U2 & T2). rewrite E2. cbn [bind].
    assert (ER : exists Y, hp s2 r = Some Y /\ nolink Y = nolink (set_modified (set_sent X t) false)).
    { specialize (A2 r). cbn [s1 set_hp hp set_head] in A2. rewrite hset_same in A2. destruct (hp s2 r) as [Y|]; [|discriminate]. apply (f_equal (fun o => match o with Some z => z | None => nolink X end)) in A2. cbn [option_map] in A2. exists Y. split; [reflexivity|symmetry; exact A2]. }
    destruct ER as (Y & EY & NY). apply nolink_fields in NY as (NY1 & _).
    assert (Pk : pok s2).
    { eapply pok_like; [exact (en_pok _ _ _ En)|rewrite P2; reflexivity|]. intros x. destruct (Nat.eq_dec x r) as [->|D]; [rewrite EX, EY, NY1; reflexivity|].
      rewrite (B2 x D). cbn [s1 set_hp hp set_head]. rewrite hset_other by exact D. destruct (hp s x); [reflexivity|exact I]. }
    destruct (r_done_pok s2 r Y Pk EY) as (s3 & E3 & Pk3 & Hp3 & F3 & U3 & H3 & T3). rewrite E3. cbn [bind].
    assert (S3 : forall x, x <> r -> hp s3 x = hp s x) by (intros x D; rewrite Hp3, hdel_other, (B2 x D) by exact D; cbn [s1 set_hp hp set_head]; rewrite hset_other by exact D; reflexivity).
    assert (Nr : forall x, In x l -> x <> r) by (intros x I ->; contradiction).
    assert (En3 : ending h0 s3 l).
    { split.
      - change (a_now s3) with (head s3 Now). rewrite H3. cbn [head]. eapply chain_ext; [|exact C2]. intros x I. rewrite Hp3. apply hdel_other. exact (Nr x I).
      - exact N2.
      - intros x. destruct (Nat.eq_dec x r) as [->|D]; [rewrite Hp3, hdel_same; split; [congruence|intros I; contradiction]|]. rewrite (S3 x D), (en_live _ _ _ En). cbn [In]. split; [intros [K|K]; [congruence|exact K]|auto].
      - intros x I. rewrite F3, Q2. apply (en_fresh _ _ _ En). right. exact I.
      - intros k x Nk Ek. rewrite H3 in Ek. exact (H2 k x Nk Ek).
      - exact Pk3.
      - intros u Iu. rewrite U3, U2 in Iu. apply filter_In in Iu as (Iu & Du). apply negb_true_iff, Nat.eqb_neq in Du. rewrite (S3 _ Du). exact (en_ua _ _ _ En u Iu).
      - intros x Z EZ. destruct (Nat.eq_dec x r) as [->|D]; [rewrite Hp3, hdel_same in EZ; discriminate|]. rewrite (S3 x D) in EZ. exact (en_same _ _ _ En x Z EZ). }
    destruct (IH fuel s3 (m ++ answer_calls cls X) seen (ret + 1) En3 ltac:(lia)) as (N0 & rest & s' & El & Eo & En' & Tp & Fs & Hn & Un & Bl).
    assert (Ec : calls_of cls (hp s3) N0 = calls_of cls (hp s) N0) by (apply calls_at; intros x I; apply S3, Nr; rewrite El; apply in_or_app; left; exact I).
    assert (Em : (m ++ answer_calls cls X) ++ calls_of cls (hp s) N0 = m ++ calls_of cls (hp s) (r :: N0)) by (rewrite <- app_assoc; f_equal; unfold calls_of; cbn [flat_map]; unfold at_rec at 2; rewrite EX; reflexivity).
    exists (r :: N0), rest, s'. rewrite Ec, Em in Eo, Bl. split; [rewrite El; reflexivity|]. split; [rewrite Eo, zlen_cons; do 2 f_equal; lia|]. split; [exact En'|].
    split; [rewrite Tp, T3, T2; reflexivity|]. split; [rewrite Fs, F3, Q2; reflexivity|]. split; [|split].
    + intros k Ek. destruct (queue_dec k Now) as [->|D]; [cbn [head] in Ek; rewrite Eh in Ek; discriminate|]. apply Hn. rewrite H3. apply G2. unfold s1. rewrite head_hp, head_set_other by exact D. exact Ek.
    + intros Z. apply Un. rewrite U3, U2. cbn [s1 set_hp set_head uans]. rewrite Z. reflexivity.
    + intros x rest' K. destruct (Bl x rest' K) as (Z & EZ & B). exists Z. split; [|exact B]. rewrite <- EZ. symmetry. apply S3, Nr. rewrite El, K. apply in_or_app. right. left. reflexivity.
Qed.

(* ------------------------------------------------------------------ *)
(* mdnsd_shutdown itself *)
Lemma shut_all : forall l s, NoDup l -> all_live (hp s) l ->
  exists s', shutdown_all s l = Ok s' /\ (forall base, chain (hp s) (a_now s) base -> (forall x, In x l -> ~ In x base) -> chain (hp s') (a_now s') (rev l ++ base)) /\
    pub s' = pub s /\ fresh s' = fresh s /\ uans s' = uans s /\ t_publish s' = t_publish s /\ (forall k, k <> Now -> head s' k = head s k) /\
    (forall x, option_map nolink (hp s' x) = if in_dec Nat.eq_dec x l then option_map (fun X => nolink (expired X)) (hp s x) else option_map nolink (hp s x)).
Proof.
  induction l as [|r l IH]; intros s N L.
  - exists s. split; [reflexivity|]. split; [intros base C _; exact C|]. repeat split.
  - apply all_live_cons in L as [(X & E) L]. apply NoDup_cons_iff in N as [Nr N]. cbn [shutdown_all]. rewrite (hget_some _ _ _ E). cbn [bind].
    set (Y := set_link (set_rr X (set_ttl (rr X) 0)) (a_now s)). set (s1 := set_head (set_hp s (hset (hp s) r Y)) Now (Some r)) in *.
    destruct (IH s1 N) as (s' & E' & C' & P1 & P2 & P3 & P4 & P5 & P6).
    + intros x I. cbn [s1 hp set_head set_hp]. destruct (Nat.eq_dec x r) as [->|D]; [contradiction|]. rewrite hset_other by exact D. apply L. exact I.
    + exists s'. split; [exact E'|]. split.
      { intros base C Db. cbn [rev]. rewrite <- app_assoc. cbn [app]. apply C'.
        - cbn [s1 hp a_now set_head set_hp chain]. split; [reflexivity|]. exists Y. split; [apply hset_same|]. cbn [Y link set_link]. eapply chain_ext; [|exact C]. intros x I. apply hset_other. intros ->. exact (Db r (or_introl eq_refl) I).
        - intros x I [->|J]; [contradiction|]. exact (Db x (or_intror I) J). }
      cbn [s1 set_head set_hp pub fresh uans t_publish hp] in *. repeat (split; [assumption|]). split; [intros k D; rewrite P5 by exact D; unfold s1; rewrite head_set_other by exact D; apply head_hp|]. intros x. rewrite P6.
      destruct (in_dec Nat.eq_dec x l) as [I|I]; (destruct (in_dec Nat.eq_dec x (r :: l)) as [J|J]); cbn [In] in J.
      * rewrite hset_other; [reflexivity|]. intros ->. contradiction.
      * exfalso. apply J. right. exact I.
      * destruct J as [<-|J]; [|contradiction]. rewrite hset_same, E. reflexivity.
      * rewrite hset_other; [reflexivity|]. intros ->. apply J. left. reflexivity.
Qed.
Lemma shut_ending s qs : rinv s qs -> exists s', shutdown_recs s = Ok s' /\ ending (hp s) s' (rev (concat (pub s))) /\ t_publish s' = t_publish s /\ (forall k, k <> Now -> head s' k = head s k) /\ uans s' = uans s.
Proof.
  intros H. pose proof (ri_p _ _ H) as P. unfold shutdown_recs.
  destruct (shut_all (concat (pub s)) (set_head s Now None) (pk_nodup _ P) (pub_live s P)) as (s' & E & C & P1 & P2 & P3 & P4 & P5 & P6). specialize (C [] eq_refl ltac:(intros x _ [])). rewrite app_nil_r in C.
  cbn [set_head hp pub fresh uans t_publish] in *. exists s'. split; [exact E|].
  assert (Hh : forall x, option_map nolink (hp s' x) = option_map (fun X => nolink (expired X)) (hp s x)).
  { intros x. rewrite P6. destruct (in_dec Nat.eq_dec x (concat (pub s))) as [I|I]; [reflexivity|]. destruct (hp s x) eqn:EX; [|reflexivity]. exfalso. apply I. apply (pk_live _ P). congruence. }
  assert (Lv : forall x, hp s' x <> None <-> hp s x <> None) by (intros x; specialize (Hh x); destruct (hp s' x), (hp s x); try discriminate Hh; split; congruence).
  split; [|split; [exact P4|split; [intros k D; rewrite P5 by exact D; apply head_set_other; exact D|exact P3]]]. split.
  - exact C.
  - apply NoDup_rev, (pk_nodup _ P).
  - intros r. rewrite Lv, (pk_live _ P). apply in_rev.
  - intros r I. rewrite P2. apply in_rev in I. apply (qk_fresh _ _ (ri_q _ _ H)). apply (pk_live _ P). exact I.
  - intros k x D Ek. rewrite P5, head_set_other in Ek by exact D. apply -> in_rev. apply (pk_live _ P). pose proof (qk_chain _ _ (ri_q _ _ H) k) as Ck. rewrite Ek in Ck. destruct (qs k); cbn [chain] in Ck; [discriminate|].
    destruct Ck as (Ex & X & EX & _). injection Ex as ->. congruence.
  - eapply pok_like; [exact P|exact P1|]. intros x. specialize (Hh x). destruct (hp s x) as [X|], (hp s' x) as [Y|]; try discriminate Hh; [|exact I].
    apply (f_equal (fun o => match o with Some y => a_name (rr y) | None => [] end)) in Hh. exact Hh.
  - intros u Iu. rewrite P3 in Iu. apply Lv. exact (ri_ua _ _ H u Iu).
  - intros r X EX. specialize (Hh r). rewrite EX in Hh. destruct (hp s r) as [X0|]; [|discriminate Hh]. exists X0. split; [reflexivity|].
    pose proof (f_equal (fun o => match o with Some y => rr y | None => rr X end) Hh) as H1. pose proof (f_equal (fun o => match o with Some y => unique y | None => unique X end) Hh) as H2. split; assumption.
Qed.

(* ------------------------------------------------------------------ *)
(* The context *)
Record ended (d0 d : daemon) (order : list nat) : Prop := mkended {
  ed_down : is_shutdown d = true;
  ed_disco : disco d = false;
  ed_class : class d = class d0;
  ed_frame : frame d = frame d0;
  ed_q : Q d = Q d0;
  ed_tp : t_publish (R d) = t_publish (R d0);
  ed_r : ending (hp (R d0)) (R d) order;
  ed_pub : a_publish (R d0) = None -> a_publish (R d) = None
}.
Lemma farewell_ending cls h0 h l : (forall r, In r l -> exists X X0, h r = Some X /\ h0 r = Some X0 /\ rr X = set_ttl (rr X0) 0 /\ unique X = unique X0) ->
  map (as_answer cls) (with_recs h l) = map (farewell cls) (with_recs h0 l).
Proof.
  induction l as [|r l IH]; intros S; [reflexivity|]. unfold with_recs in *. cbn [flat_map]. rewrite !map_app, IH by (intros x I; apply S; right; exact I). f_equal.
  destruct (S r (or_introl eq_refl)) as (X & X0 & -> & -> & Er & Eu). cbn [map]. f_equal. unfold as_answer, farewell, shown, flushing. cbn [snd]. rewrite Er, Eu. reflexivity.
Qed.
Lemma ended_out d0 d order e : ended d0 d order -> uans (R d) = [] -> a_publish (R d0) = None \/ micros (e_now e) < micros (t_publish (R d0)) ->
  exists d' m N rest, mdnsd_out d e = Ok (d', m, zlen N) /\ order = N ++ rest /\ ended d0 d' rest /\ answers_of m = map (farewell (class d0)) (with_recs (hp (R d0)) N) /\ o_qr m = true /\ uans (R d') = [] /\
    ((forall r X, hp (R d0) r = Some X -> 12 + rr_len (rr X) < frame d0) -> order <> [] -> N <> []).
Proof.
  intros [E1 E2 E3 E4 E5 E6 E7 E8] Ua Q. unfold mdnsd_out. rewrite (Ua : uans (R (with_now d (e_now e))) = []).
  change (R (with_now d (e_now e))) with (R d). change (disco (with_now d (e_now e))) with (disco d). change (class (with_now d (e_now e))) with (class d). change (frame (with_now d (e_now e))) with (frame d). change (is_shutdown (with_now d (e_now e))) with (is_shutdown d).
  rewrite E1, E2.
  assert (Len : (length order < qfuel (R d))%nat) by (unfold qfuel; apply Nat.lt_succ_r; apply short_list; [exact (en_nodup _ _ _ E7)|exact (en_fresh _ _ _ E7)]).
  destruct (r_out_ending (hp (R d0)) (e_now e) (frame d) (class d) order (qfuel (R d)) (R d) [] [] 0 E7 Len) as (N & rest & s' & Eo & Er & En & Tp & Fs & Hn & Un & Bl). rewrite Er. cbn [bind].
  assert (Ep : out_publish s' (e_now e) (frame d) (class d) ([] ++ calls_of (class d) (hp (R d)) N) [] (0 + zlen N) = Ok (s', [] ++ calls_of (class d) (hp (R d)) N, [], 0 + zlen N)).
  { unfold out_publish. destruct (probing s'); [reflexivity|]. destruct (a_publish s') eqn:Ea; [|reflexivity]. destruct Q as [Q|Q].
    - pose proof (Hn Publish (E8 Q)) as K. cbn [head] in K. congruence.
    - rewrite Tp, E6. replace (tvdiff (e_now e) (t_publish (R d0)) <=? 0) with false; [reflexivity|]. symmetry. apply Z.leb_gt. unfold tvdiff, micros in *. lia. }
  rewrite Ep. cbn [bind app]. rewrite Z.add_0_l. eexists. eexists. exists N, rest. split; [reflexivity|]. split; [exact Eo|]. split.
  { split; try assumption; cbn [R with_R with_now]; [rewrite Tp; exact E6|]. intros K. exact (Hn Publish (E8 K)). }
  split.
  { unfold answers_of. cbn [o_calls]. rewrite <- (app_nil_r (calls_of _ _ _)), items_answers by reflexivity. cbn [items]. rewrite app_nil_r.
    rewrite <- (with_recs_map _ (hp (R d)) (as_answer (class d)) (shown_answer (class d)) N (fun r X => shown_as_answer (class d) r X)). rewrite FactsOut.filter_all.
    - rewrite E3. apply farewell_ending. intros r I. assert (Lr : hp (R d) r <> None) by (apply (en_live _ _ _ E7); rewrite Eo; apply in_or_app; left; exact I).
      destruct (hp (R d) r) as [X|] eqn:EX; [|contradiction]. destruct (en_same _ _ _ E7 r X EX) as (X0 & E0 & A & B). exists X, X0. auto.
    - intros p. reflexivity. }
  split; [reflexivity|]. split; [exact (Un Ua)|]. intros Fit Ne ->. cbn [app] in Eo. subst rest. destruct order as [|x order]; [contradiction|]. destruct (Bl x order eq_refl) as (X & EX & B). cbn [calls_of flat_map app] in B.
  rewrite mlen_nil in B. destruct (en_same _ _ _ E7 x X EX) as (X0 & E0 & A & _). specialize (Fit x X0 E0). rewrite A in B. change (rr_len (set_ttl (rr X0) 0)) with (rr_len (rr X0)) in B. rewrite E4 in B. lia.
Qed.
Lemma shut_ended d e : reach d -> disco d = false -> exists d1, step d e OShutdown = Ok (d1, RUnit) /\ ended d d1 (rev (concat (pub (R d)))) /\ uans (R d1) = uans (R d).
Proof.
  intros K Dc. destruct (reach_dinv d K) as (qs & H & _). destruct (shut_ending (R d) qs H) as (s' & E & En & Tp & Hd & Ua). cbn [step]. rewrite E. cbn [bind]. eexists. split; [reflexivity|]. split; [|exact Ua].
  split; try reflexivity; try assumption. intros Q. cbn [with_shutdown with_R R]. change (head s' Publish = None). rewrite Hd by discriminate. exact Q.
Qed.
Lemma ended_gone d0 d r : ended d0 d [] -> SpecLife.gone d r.
Proof.
  intros Ed. pose proof (ed_r _ _ _ Ed) as En. assert (Nn : forall x, hp (R d) x = None) by (intros x; destruct (hp (R d) x) eqn:EX; [|reflexivity]; destruct (proj1 (en_live _ _ _ En x) ltac:(congruence))).
  split; [intros X EX; unfold record in EX; rewrite Nn in EX; discriminate|]. split; [intros I; apply (pk_live _ (en_pok _ _ _ En)) in I; apply I, Nn|]. split.
  - intros q (l & K & I). unfold queue_is in K. assert (Hq : head (R d) q = None).
    { destruct (queue_dec q Now) as [->|D]; [exact (en_chain _ _ _ En)|]. destruct (head (R d) q) as [x|] eqn:Ex; [|reflexivity]. destruct (en_heads _ _ _ En q x D Ex). }
    rewrite Hq in K. inversion K; subst. destruct I.
  - intros u Iu. destruct (en_ua _ _ _ En u Iu (Nn _)).
Qed.

(* A reply to one host that was still waiting *)
Lemma ended_uni d0 d order e u us : ended d0 d order -> uans (R d) = u :: us -> exists d' m, mdnsd_out d e = Ok (d', m, 1) /\ ended d0 d' order /\ uans (R d') = us.
Proof.
  intros [E1 E2 E3 E4 E5 E6 E7 E8] Ua. unfold mdnsd_out. rewrite (Ua : uans (R (with_now d (e_now e))) = u :: us).
  change (R (with_now d (e_now e))) with (R d). change (class (with_now d (e_now e))) with (class d). change (frame (with_now d (e_now e))) with (frame d).
  destruct (hp (R d) (u_r u)) as [X|] eqn:EX; [|exfalso; apply (en_ua _ _ _ E7 u); [rewrite Ua; left; reflexivity|exact EX]].
  unfold out_unicast. cbn [set_uans hp]. rewrite (hget_some _ _ _ EX). cbn [bind]. cbv zeta. set (s' := set_hp (set_uans (R d) us) (hset (hp (R d)) (u_r u) (set_sent X (e_now e)))).
  assert (P : pok s') by (eapply pok_like; [exact (en_pok _ _ _ E7)|reflexivity|]; intros x; cbn [s' set_hp hp]; destruct (Nat.eq_dec x (u_r u)) as [->|D]; [rewrite hset_same, EX; reflexivity|rewrite hset_other by exact D; destruct (hp (R d) x); [reflexivity|exact I]]).
  destruct (additional_spec s' (frame d) (class d) (uni_calls (class d) X) (u_r u) [u_r u] (set_sent X (e_now e)) P (hset_same _ _ _)) as (m' & seen' & added & Ea & _).
  fold (uni_calls (class d) X). rewrite Ea. cbn [bind]. eexists. eexists. split; [reflexivity|]. split; [|reflexivity].
  assert (Lv : forall x, hp s' x <> None <-> hp (R d) x <> None) by (intros x; cbn [s' set_hp hp]; destruct (Nat.eq_dec x (u_r u)) as [->|D]; [rewrite hset_same, EX; split; congruence|rewrite hset_other by exact D; reflexivity]).
  split; try assumption. cbn [R with_R]. split.
  - change (chain (hset (hp (R d)) (u_r u) (set_sent X (e_now e))) (a_now (R d)) order). eapply chain_links; [|exact (en_chain _ _ _ E7)]. intros x Z Ix EZ. destruct (Nat.eq_dec x (u_r u)) as [->|D]; [rewrite EX in EZ; injection EZ as <-; eexists; split; [apply hset_same|reflexivity]|rewrite hset_other by exact D; eauto].
  - exact (en_nodup _ _ _ E7).
  - intros r. rewrite Lv. apply (en_live _ _ _ E7).
  - exact (en_fresh _ _ _ E7).
  - intros k x Nk Ek. apply (en_heads _ _ _ E7 k x Nk). destruct k; exact Ek.
  - exact P.
  - intros v Iv. apply Lv. apply (en_ua _ _ _ E7). rewrite Ua. right. exact Iv.
  - intros r Y EY. cbn [s' set_hp hp] in EY. destruct (Nat.eq_dec r (u_r u)) as [->|D]; [rewrite hset_same in EY; injection EY as <-; exact (en_same _ _ _ E7 _ X EX)|rewrite hset_other in EY by exact D; exact (en_same _ _ _ E7 r Y EY)].
Qed.

(* ------------------------------------------------------------------ *)
(* Any number of messages *)
Lemma ended_outs d0 : forall l d order, ended d0 d order -> (a_publish (R d0) = None \/ forall e, In e l -> micros (e_now e) < micros (t_publish (R d0))) ->
  exists d' ms N rest, outs d l = Ok (d', ms) /\ order = N ++ rest /\ ended d0 d' rest /\ concat (map answers_of (skipn (length (uans (R d))) ms)) = map (farewell (class d0)) (with_recs (hp (R d0)) N) /\
    ((forall r X, hp (R d0) r = Some X -> 12 + rr_len (rr X) < frame d0) -> (length (uans (R d)) + length order <= length l)%nat -> rest = []).
Proof.
  induction l as [|e l IH]; intros d order Ed Q.
  - exists d, [], [], order. split; [reflexivity|]. split; [reflexivity|]. split; [exact Ed|]. split; [rewrite skipn_nil; reflexivity|]. intros _ L. destruct order; [reflexivity|cbn [length] in L; lia].
  - assert (Q' : a_publish (R d0) = None \/ forall e, In e l -> micros (e_now e) < micros (t_publish (R d0))) by (destruct Q as [Q|Q]; [left; exact Q|right; intros e' I; apply Q; right; exact I]).
    destruct (uans (R d)) as [|u us] eqn:Ua.
    + destruct (ended_out d0 d order e Ed Ua) as (d1 & m & N & rest & E & Eo & Ed1 & An & _ & Ua1 & Pr); [destruct Q as [Q|Q]; [left; exact Q|right; apply Q; left; reflexivity]|].
      destruct (IH d1 rest Ed1 Q') as (d2 & ms & N2 & rest2 & E2 & Eo2 & Ed2 & An2 & Pr2). rewrite Ua1 in An2, Pr2. cbn [length skipn Nat.add] in An2, Pr2.
      exists d2, (m :: ms), (N ++ N2), rest2. split; [cbn [outs]; rewrite E; cbn [bind]; rewrite E2; reflexivity|]. split; [rewrite Eo, Eo2, app_assoc; reflexivity|]. split; [exact Ed2|].
      split; [cbn [length skipn map concat]; rewrite An, An2, with_recs_app, map_app; reflexivity|]. intros Fit L. apply Pr2; [exact Fit|]. cbn [length Nat.add] in L. destruct order as [|o order]; [destruct N; [cbn [app] in Eo; subst rest; cbn [length]; lia|discriminate]|].
      specialize (Pr Fit ltac:(discriminate)). destruct N as [|n N]; [contradiction|]. rewrite Eo, app_length in L. cbn [length] in L. lia.
    + destruct (ended_uni d0 d order e u us Ed Ua) as (d1 & m & E & Ed1 & Ua1). destruct (IH d1 order Ed1 Q') as (d2 & ms & N2 & rest2 & E2 & Eo2 & Ed2 & An2 & Pr2). rewrite Ua1 in An2, Pr2.
      exists d2, (m :: ms), N2, rest2. split; [cbn [outs]; rewrite E; cbn [bind]; rewrite E2; reflexivity|]. split; [exact Eo2|]. split; [exact Ed2|]. split; [exact An2|]. intros Fit L. apply Pr2; [exact Fit|cbn [length] in L; lia].
Qed.
Lemma unlisted d : reach d -> (forall r, ~ waits d Publish r) -> a_publish (R d) = None.
Proof.
  intros K W. destruct (reach_dinv d K) as (qs & H & _). destruct (a_publish (R d)) as [x|] eqn:E; [|reflexivity]. exfalso. apply (W x). apply (waits_iff d qs Publish x H).
  pose proof (qk_chain _ _ (ri_q _ _ H) Publish) as C. cbn [head] in C. rewrite E in C. destruct (qs Publish); cbn [chain] in C; [discriminate|]. destruct C as (Ex & _). injection Ex as ->. left. reflexivity.
Qed.
Lemma shutdown_sends d e l : reach d -> disco d = false -> quiet_for d l ->
  exists d1 d2 ms bl G k, step d e OShutdown = Ok (d1, RUnit) /\ outs d1 l = Ok (d2, ms) /\ NoDup (map fst G) /\ (forall r X, In (r, X) G <-> record d r X) /\
    concat (map answers_of (skipn (length (uans (R d))) ms)) = map (farewell (class d)) (firstn k G) /\ mdnsd_free d2 = Ok bl /\ NoDup bl /\ (forall b, In b bl <-> allocated d2 b) /\
    ((forall r X, record d r X -> 12 + rr_len (rr X) < frame d) -> (length (uans (R d)) + length G <= length l)%nat -> firstn k G = G /\ forall r, SpecLife.gone d2 r).
Proof.
  intros K Dc Q. destruct (shut_ended d e K Dc) as (d1 & E & Ed & Ua). set (order := rev (concat (pub (R d)))) in *. destruct (reach_dinv d K) as (qs & H & (C & _)).
  assert (Lo : forall r, In r order <-> hp (R d) r <> None) by (intros r; unfold order; rewrite <- in_rev; symmetry; apply (pk_live _ (ri_p _ _ H))).
  destruct (ended_outs d l d1 order Ed) as (d2 & ms & N & rest & Es & Eo & Ed2 & An & Pr); [destruct Q as [Q|Q]; [left; exact (unlisted d K Q)|right; exact Q]|]. rewrite Ua in An, Pr.
  destruct (freed_tables d2 (en_pok _ _ _ (ed_r _ _ _ Ed2))) as (bl & Ef & Nb & Ib); [rewrite (ed_q _ _ _ Ed2); exact C|].
  exists d1, d2, ms, bl, (with_recs (hp (R d)) order), (length (with_recs (hp (R d)) N)). split; [exact E|]. split; [exact Es|].
  split; [rewrite with_recs_fst; [apply NoDup_rev, (pk_nodup _ (ri_p _ _ H))|intros r Ir; apply Lo; exact Ir]|].
  split. { intros r X. rewrite with_recs_in. split; [intros [_ EX]; exact EX|]. intros EX. split; [|exact EX]. apply Lo. unfold record in EX. congruence. }
  assert (Ef' : firstn (length (with_recs (hp (R d)) N)) (with_recs (hp (R d)) order) = with_recs (hp (R d)) N) by (rewrite Eo, with_recs_app, firstn_app, Nat.sub_diag, firstn_all; cbn [firstn]; apply app_nil_r).
  rewrite Ef'. split; [exact An|]. split; [exact Ef|]. split; [exact Nb|]. split; [exact Ib|]. intros Fit L. rewrite with_recs_len in L by (intros r Ir; apply Lo; exact Ir). specialize (Pr Fit L). subst rest. rewrite app_nil_r in Eo. subst N.
  split; [reflexivity|]. intros r. exact (ended_gone d d2 r Ed2).
Qed.
