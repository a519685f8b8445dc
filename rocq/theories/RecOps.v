(* The API functions of Rec.v preserve the invariant. *)
From Verif Require Import Base Lemmas Hash HashProofs Wire Rec RecInv RecSafe.

(* ------------------------------------------------------------------ *)
(* Lists of buckets *)

Lemma in_concat_nth : forall (A : Type) (l : list (list A)) x, In x (concat l) <-> exists i, In x (nth i l []).
Proof.
  intros A l x. induction l as [|b l IH].
  - cbn. split; [tauto|]. intros [[|i] I]; exact I.
  - cbn [concat]. rewrite in_app_iff, IH. split.
    + intros [I|[i I]]; [exists O; exact I|exists (S i); exact I].
    + intros [[|i] I]; [left; exact I|right; exists i; exact I].
Qed.

Lemma nodup_app : forall (A : Type) (a b : list A), NoDup (a ++ b) <-> NoDup a /\ NoDup b /\ (forall x, In x a -> ~ In x b).
Proof.
  intros A a b. induction a as [|y a IH]; cbn [app].
  - split; [intros H; repeat split; auto; constructor|tauto].
  - split.
    + intros H. inversion H as [|? ? H1 H2]; subst. apply IH in H2. destruct H2 as (H2 & H3 & H4).
      rewrite in_app_iff in H1. split; [constructor; auto|]. split; [exact H3|].
      intros x [->|I]; auto.
    + intros (H1 & H2 & H3). inversion H1 as [|? ? H4 H5]; subst. constructor.
      * rewrite in_app_iff. intros [I|I]; [auto|]. apply (H3 y); [left; reflexivity|exact I].
      * apply IH. split; [exact H5|]. split; [exact H2|]. intros x I. apply H3. right. exact I.
Qed.

Lemma nodup_concat_sub : forall (l : list (list nat)) i b, NoDup (concat l) -> NoDup b -> (forall x, In x b -> In x (nth i l [])) ->
  NoDup (concat (upd l i b)).
Proof.
  induction l as [|c l IH]; intros i b H Hb S; cbn [upd]; [destruct i; exact H|].
  cbn [concat] in H. apply nodup_app in H. destruct H as (H1 & H2 & H3). destruct i as [|i]; cbn [concat]; apply nodup_app.
  - split; [exact Hb|]. split; [exact H2|]. intros x I. apply H3. apply S. exact I.
  - split; [exact H1|]. split; [apply IH; auto|]. intros x I K. apply (H3 x I).
    apply in_concat_nth in K. destruct K as [j K]. apply in_concat_nth.
    destruct (Nat.eq_dec i j) as [<-|D].
    + exists i. destruct (Nat.lt_ge_cases i (length l)) as [A|A].
      * rewrite nth_upd_same in K by exact A. apply S. exact K.
      * rewrite nth_overflow in K by (rewrite upd_length; exact A). destruct K.
    + exists j. rewrite nth_upd_other in K by exact D. exact K.
Qed.

Lemma nodup_concat_add : forall (l : list (list nat)) i r, NoDup (concat l) -> (i < length l)%nat -> ~ In r (concat l) ->
  NoDup (concat (upd l i (r :: nth i l []))).
Proof.
  induction l as [|c l IH]; intros i r H L N; cbn [length] in L; [lia|].
  cbn [concat] in H, N. rewrite in_app_iff in N. apply nodup_app in H. destruct H as (H1 & H2 & H3).
  destruct i as [|i]; cbn [upd concat nth]; apply nodup_app.
  - split; [constructor; tauto|]. split; [exact H2|]. intros x [->|I]; [tauto|auto].
  - split; [exact H1|]. split; [apply IH; auto; lia|]. intros x I K.
    apply in_concat_nth in K. destruct K as [j K]. destruct (Nat.eq_dec i j) as [<-|D].
    + rewrite nth_upd_same in K by lia. destruct K as [->|K]; [tauto|]. apply (H3 x I). apply in_concat_nth. exists i. exact K.
    + rewrite nth_upd_other in K by exact D. apply (H3 x I). apply in_concat_nth. exists j. exact K.
Qed.

Lemma in_upd : forall (l : list (list nat)) i b x, (i < length l)%nat ->
  (In x (concat (upd l i b)) <-> In x b \/ exists j, j <> i /\ In x (nth j l [])).
Proof.
  intros l i b x L. rewrite in_concat_nth. split.
  - intros [j I]. destruct (Nat.eq_dec i j) as [<-|D].
    + rewrite nth_upd_same in I by exact L. left. exact I.
    + rewrite nth_upd_other in I by exact D. right. exists j. auto.
  - intros [I|(j & D & I)].
    + exists i. rewrite nth_upd_same by exact L. exact I.
    + exists j. rewrite nth_upd_other by congruence. exact I.
Qed.

(* ------------------------------------------------------------------ *)
(* Where records are *)

Lemma pok_in : forall s x X, pok s -> hp s x = Some X -> In x (chain_of s (a_name (rr X))).
Proof.
  intros s x X [A B C D] E. assert (I : In x (concat (pub s))) by (apply B; congruence).
  apply in_concat_nth in I. destruct I as [i I]. unfold chain_of. rewrite (D i x X I E). exact I.
Qed.

Lemma pok_chain_live : forall s n x, pok s -> In x (chain_of s n) -> exists X, hp s x = Some X /\ rbucket (a_name (rr X)) = rbucket n.
Proof.
  intros s n x [A B C D] I. assert (L : hp s x <> None) by (apply B; apply in_concat_nth; eexists; exact I).
  destruct (hp s x) as [X|] eqn:E; [|congruence]. exists X. split; [reflexivity|]. eapply D; eauto.
Qed.

Lemma pok_chain_nodup : forall s n, pok s -> NoDup (chain_of s n).
Proof.
  intros s n [A B C D]. unfold chain_of. revert C. generalize (rbucket n) as i. generalize (pub s) as l.
  clear. induction l as [|b l IH]; intros [|i] C; cbn [nth]; try constructor; cbn [concat] in C; apply nodup_app in C; [apply C|].
  apply IH. apply C.
Qed.

(* ------------------------------------------------------------------ *)
(* _r_done *)

Definition off (qs : queue -> list nat) (r : nat) : Prop := forall q, ~ In r (qs q).

Lemma r_done_spec : forall s qs r X, qok s qs -> pok s -> uaok s -> off qs r -> hp s r = Some X ->
  (forall x Y, x <> r -> hp s x = Some Y -> urec (In x (qs Probing)) (In x (qs Publish)) Y) ->
  exists s', r_done s r = Ok s' /\ rinv s' qs /\
    hp s' = hdel (hp s) r /\ fresh s' = fresh s /\ uans s' = filter (fun u => negb (Nat.eqb (u_r u) r)) (uans s) /\
    (forall q, head s' q = head s q) /\ t_pause s' = t_pause s /\ t_probe s' = t_probe s /\ t_publish s' = t_publish s /\ conflicts s' = conflicts s /\
    pub s' = upd (pub s) (rbucket (a_name (rr X))) (remove1 r (nth (rbucket (a_name (rr X))) (pub s) [])).
Proof.
  intros s qs r X HQ HP HA O E U. unfold r_done. rewrite (hget_some _ _ _ E). cbn [bind].
  eexists. split; [reflexivity|]. split; [|repeat split; try reflexivity; intros []; reflexivity].
  pose proof (pok_in s r X HP E) as IR. unfold chain_of in IR. set (i := rbucket (a_name (rr X))) in *.
  assert (Li : (i < length (pub s))%nat) by (rewrite (pk_len _ HP); apply rbucket_lt).
  pose proof (pok_chain_nodup s (a_name (rr X)) HP) as NB. unfold chain_of in NB. fold i in NB.
  split.
  - split; cbn [hp set_hp set_pub u_remove set_uans fresh].
    + intros x. destruct (Nat.eq_dec x r) as [->|N]; [rewrite hdel_same; congruence|].
      rewrite hdel_other by exact N. apply (qk_fresh _ _ HQ).
    + intros q. replace (head _ q) with (head s q) by (destruct q; reflexivity).
      eapply chain_ext; [|apply (qk_chain _ _ HQ)]. intros x I. apply hdel_other. intros ->. exact (O q I).
    + apply (qk_nodup _ _ HQ).
    + apply (qk_disj _ _ HQ).
  - split; cbn [hp set_hp set_pub u_remove set_uans pub].
    + rewrite upd_length. apply (pk_len _ HP).
    + intros x. rewrite in_upd by exact Li. rewrite remove1_in_iff by exact NB. destruct (Nat.eq_dec x r) as [->|N].
      * rewrite hdel_same. split; [congruence|]. intros [[_ ?]|(j & D & I)]; [congruence|].
        exfalso. apply D. symmetry. exact (pk_bucket _ HP j r X I E).
      * rewrite hdel_other by exact N. rewrite (pk_live _ HP x), in_concat_nth. split.
        -- intros [j I]. destruct (Nat.eq_dec j i) as [->|D]; [left; auto|right; exists j; auto].
        -- intros [[I _]|(j & _ & I)]; eexists; exact I.
    + apply nodup_concat_sub; [apply (pk_nodup _ HP)|apply remove1_nodup; exact NB|].
      intros x I. eapply remove1_in. exact I.
    + intros j x Y I EY. destruct (Nat.eq_dec x r) as [->|N]; [rewrite hdel_same in EY; discriminate|].
      rewrite hdel_other in EY by exact N. destruct (Nat.eq_dec i j) as [<-|D].
      * rewrite nth_upd_same in I by exact Li. apply remove1_in in I. exact (pk_bucket _ HP i x Y I EY).
      * rewrite nth_upd_other in I by exact D. exact (pk_bucket _ HP j x Y I EY).
  - intros x Y EY. cbn [hp set_hp] in EY. destruct (Nat.eq_dec x r) as [->|N]; [rewrite hdel_same in EY; discriminate|].
    rewrite hdel_other in EY by exact N. apply U; auto.
  - intros u I. cbn [hp set_hp set_pub u_remove set_uans uans] in *. apply filter_In in I. destruct I as [I D].
    apply negb_true_iff, Nat.eqb_neq in D. rewrite hdel_other by exact D. apply HA. exact I.
Qed.

(* ------------------------------------------------------------------ *)
(* Creating records *)

Lemma fresh_free : forall s qs, qok s qs -> hp s (fresh s) = None.
Proof.
  intros s qs H. destruct (hp s (fresh s)) eqn:E; [|reflexivity].
  assert (fresh s < fresh s)%nat by (apply (qk_fresh _ _ H); congruence). lia.
Qed.

Lemma fresh_off : forall s qs, qok s qs -> off qs (fresh s).
Proof. intros s qs H q I. apply (qok_live _ _ _ _ H I). eapply fresh_free; eauto. Qed.

Definition new_rec (host : list Z) (type ttl : Z) : mrec := mkmrec (new_answer host type ttl) 0 false 0 None (0, 0) None.

Lemma mdnsd_shared_inv : forall s qs host type ttl s' r, rinv s qs -> mdnsd_shared s host type ttl = (s', r) ->
  rinv s' qs /\ r = fresh s /\ fresh s' = S (fresh s) /\ hp s' r = Some (new_rec host type ttl) /\ (forall x, x <> r -> hp s' x = hp s x) /\
  chain_of s' host = r :: chain_of s host.
Proof.
  intros s qs host type ttl s' r H E. unfold mdnsd_shared in E. inversion E; subst s' r. clear E.
  pose proof (fresh_free _ _ (ri_q _ _ H)) as F0. pose proof (fresh_off _ _ (ri_q _ _ H)) as FO.
  assert (Li : (rbucket host < length (pub s))%nat) by (rewrite (pk_len _ (ri_p _ _ H)); apply rbucket_lt).
  split; [|cbn [hp fresh]; repeat split].
  - split.
    + split; cbn [hp fresh].
      * intros x. destruct (Nat.eq_dec x (fresh s)) as [->|N]; [lia|]. rewrite hset_other by exact N.
        intros K. pose proof (qk_fresh _ _ (ri_q _ _ H) x K). lia.
      * intros q. replace (head _ q) with (head s q) by (destruct q; reflexivity).
        eapply chain_ext; [|apply (qk_chain _ _ (ri_q _ _ H))]. intros x I. apply hset_other. intros ->. exact (FO q I).
      * apply (qk_nodup _ _ (ri_q _ _ H)).
      * apply (qk_disj _ _ (ri_q _ _ H)).
    + pose proof (ri_p _ _ H) as P. split; cbn [hp pub].
      * rewrite upd_length. apply (pk_len _ P).
      * intros x. rewrite in_upd by exact Li. destruct (Nat.eq_dec x (fresh s)) as [->|N].
        -- rewrite hset_same. split; [|congruence]. intros _. left. left. reflexivity.
        -- rewrite hset_other by exact N. rewrite (pk_live _ P), in_concat_nth. cbn [In]. split.
           ++ intros [j I]. destruct (Nat.eq_dec j (rbucket host)) as [->|D]; [left; right; exact I|right; exists j; auto].
           ++ intros [[?|I]|(j & _ & I)]; [congruence| |]; eexists; exact I.
      * apply nodup_concat_add; [apply (pk_nodup _ P)|exact Li|]. rewrite <- (pk_live _ P). congruence.
      * intros j x Y I EY. destruct (Nat.eq_dec (rbucket host) j) as [<-|D].
        -- rewrite nth_upd_same in I by exact Li. destruct I as [<-|I].
           ++ rewrite hset_same in EY. inversion EY; subst Y. reflexivity.
           ++ destruct (Nat.eq_dec x (fresh s)) as [->|N].
              ** rewrite hset_same in EY. inversion EY; subst Y. reflexivity.
              ** rewrite hset_other in EY by exact N. exact (pk_bucket _ P _ _ _ I EY).
        -- rewrite nth_upd_other in I by exact D. destruct (Nat.eq_dec x (fresh s)) as [->|N].
           ++ exfalso. apply (proj2 (pk_live _ P (fresh s))); [apply in_concat_nth; eexists; exact I|exact F0].
           ++ rewrite hset_other in EY by exact N. exact (pk_bucket _ P _ _ _ I EY).
    + intros x Y EY. cbn [hp] in EY. destruct (Nat.eq_dec x (fresh s)) as [->|N].
      * rewrite hset_same in EY. inversion EY; subst Y. split; cbn [unique tries conflict]; try lia; try congruence.
        -- split; [lia|]. intros I. exfalso. exact (FO Probing I).
      * rewrite hset_other in EY by exact N. exact (ri_u _ _ H x Y EY).
    + intros u I. cbn [hp uans] in *. destruct (Nat.eq_dec (u_r u) (fresh s)) as [->|N]; [rewrite hset_same; discriminate|].
      rewrite hset_other by exact N. apply (ri_ua _ _ H). exact I.
  - apply hset_same.
  - intros x N. apply hset_other. exact N.
  - unfold chain_of. cbn [pub]. apply nth_upd_same. exact Li.
Qed.

Lemma set_hp_hset_frame : forall s r X Y, hp s r = Some X -> nolink Y = nolink X -> hframe (hp s) (hset (hp s) r Y).
Proof.
  intros s r X Y E N x. destruct (Nat.eq_dec x r) as [->|D].
  - rewrite hset_same, E. cbn [option_map]. congruence.
  - rewrite hset_other by exact D. reflexivity.
Qed.

Lemma mdnsd_unique_inv : forall s qs t host type ttl cb, rinv s qs -> cb <> None ->
  exists s', mdnsd_unique s t host type ttl cb = Ok (s', fresh s) /\ rinv s' (on Probing (fresh s :: qs Probing) qs) /\
    fresh s' = S (fresh s) /\
    (exists Y, hp s' (fresh s) = Some Y /\ nolink Y = mkmrec (new_answer host type ttl) 1 false 0 cb (0, 0) None) /\
    (forall x, x <> fresh s -> option_map nolink (hp s' x) = option_map nolink (hp s x)) /\ chain_of s' host = fresh s :: chain_of s host.
Proof.
  intros s qs t host type ttl cb H Hcb. unfold mdnsd_unique. destruct (mdnsd_shared s host type ttl) as [s1 r] eqn:E1.
  destruct (mdnsd_shared_inv _ _ _ _ _ _ _ H E1) as (H1 & -> & F1 & G1 & O1 & C1).
  rewrite (hget_some _ _ _ G1). cbn [bind].
  set (Y := mkmrec (rr (new_rec host type ttl)) 1 (modified (new_rec host type ttl)) (tries (new_rec host type ttl)) cb (last_sent (new_rec host type ttl)) (link (new_rec host type ttl))).
  set (r := fresh s) in *. set (s2 := set_hp s1 (hset (hp s1) r Y)).
  assert (Q2 : qok s2 qs) by (eapply qok_set; [apply (ri_q _ _ H1)|exact G1|reflexivity]).
  assert (FO : off qs r) by (eapply fresh_off; apply (ri_q _ _ H)).
  assert (L2 : hp s2 r <> None) by (cbn [s2 hp set_hp]; rewrite hset_same; discriminate).
  destruct (r_remove_lists_spec s2 qs r (Some Probing) Q2 L2) as (s3 & E3 & Q3 & F3). rewrite E3. cbn [bind].
  assert (Q3' : qok s3 qs).
  { eapply qok_ext; [exact Q3|]. intros k. unfold removed. destruct (skips (Some Probing) k); [reflexivity|].
    symmetry. apply remove1_notin. apply FO. }
  destruct (r_push_spec s3 qs Probing r Q3' (sframe_live _ _ _ F3 L2) (fun k _ => FO k)) as (s4 & E4 & Q4 & F4).
  rewrite E4. cbn [bind]. destruct (in_dec Nat.eq_dec r (qs Probing)) as [I|_]; [exfalso; exact (FO _ I)|].
  eexists. split; [reflexivity|].
  pose proof (sframe_trans _ _ _ F3 F4) as [(T1 & T2 & T3 & _) T].
  cbn [s2 set_hp fresh pub uans hp] in T1, T2, T3, T.
  assert (K : rinv s4 (on Probing (r :: qs Probing) qs)).
  { split.
    - exact Q4.
    - eapply (pok_frame s2); [eapply pok_set; [apply (ri_p _ _ H1)|exact G1|reflexivity]|exact T2|exact T].
    - intros x Z EZ. destruct (hframe_some' _ _ _ _ T EZ) as (Z0 & EZ0 & NZ).
      destruct (Nat.eq_dec x r) as [->|N].
      + rewrite hset_same in EZ0. inversion EZ0; subst Z0. eapply urec_nolink; [|exact NZ|reflexivity|reflexivity].
        rewrite on_same, on_other by congruence. split; cbn [unique tries conflict Y new_rec]; try lia; auto.
        * split; [|lia]. intros _. left. reflexivity.
      + rewrite hset_other in EZ0 by exact N. eapply urec_nolink; [apply (ri_u _ _ H1 x Z0 EZ0)|exact NZ| |].
        * rewrite on_same. cbn [In]. intuition congruence.
        * rewrite on_other by congruence. reflexivity.
    - eapply (uaok_frame s2); [apply uaok_set; apply (ri_ua _ _ H1)|exact T3|exact T]. }
  split; [|split; [|split; [|split]]].
  - eapply rinv_other; [exact K|reflexivity..|]. intros []; reflexivity.
  - cbn [fresh set_tprobe]. congruence.
  - cbn [hp set_tprobe]. pose proof (hset_same (hp s1) r Y) as G. destruct (hframe_some _ _ _ _ T G) as (Z & EZ & NZ). exists Z. split; [exact EZ|exact NZ].
  - intros x N. cbn [hp set_tprobe]. rewrite <- (T x). rewrite hset_other by exact N. rewrite O1 by exact N. reflexivity.
  - unfold chain_of. cbn [pub set_tprobe]. rewrite T2. exact C1.
Qed.

(* ------------------------------------------------------------------ *)
(* mdnsd_set_* *)

(* The mdnsd_set_* functions leave name, type and TTL alone. *)
Definition keeps_id (f : answer -> answer) : Prop :=
  forall a, a_name (f a) = a_name a /\ a_type (f a) = a_type a /\ a_ttl (f a) = a_ttl a.

Lemma mdnsd_set_inv : forall s qs t r f X, rinv s qs -> keeps_id f -> hp s r = Some X ->
  exists s' qs' Y, mdnsd_set s t r f = Ok s' /\ rinv s' qs' /\ hbut r (hp s) (hp s') /\ hp s' r = Some Y /\ rr Y = f (rr X) /\ unique Y = unique X /\
    fresh s' = fresh s /\ pub s' = pub s.
Proof.
  intros s qs t r f X H K E. unfold mdnsd_set, with_rr. rewrite (hget_some _ _ _ E). cbn [bind].
  set (s1 := set_hp s (hset (hp s) r (set_rr X (f (rr X))))).
  assert (H1 : rinv s1 qs).
  { eapply rinv_set; [exact H|exact E|reflexivity|apply K|]. destruct (ri_u _ _ H r X E) as [U1 U2 U3 U4 U5 U6 U7]. split; assumption. }
  destruct (r_publish_inv s1 qs t r _ H1 (hset_same (hp s) r _)) as (s' & qs' & Y & E' & H' & B & EY & RY & UY & F & P).
  exists s', qs', Y. split; [exact E'|]. split; [exact H'|]. split; [|split; [exact EY|split; [exact RY|split; [exact UY|split; [exact F|exact P]]]]].
  eapply hbut_trans; [|exact B]. apply hbut_set.
Qed.

Lemma keeps_raw : forall d, keeps_id (put_raw d). Proof. intros d a. repeat split. Qed.
Lemma keeps_host : forall n, keeps_id (put_host n). Proof. intros d a. repeat split. Qed.
Lemma keeps_ip : forall i, keeps_id (put_ip i). Proof. intros d a. repeat split. Qed.
Lemma keeps_ip6 : forall i, keeps_id (put_ip6 i). Proof. intros d a. repeat split. Qed.
Lemma keeps_srv : forall p w q n, keeps_id (fun a => put_host n (put_srv p w q a)). Proof. intros p w q n a. repeat split. Qed.

(* ------------------------------------------------------------------ *)
(* mdnsd_done *)

Lemma unlink_probing_spec : forall l fuel h p r, chain h p l -> NoDup l -> (length l < fuel)%nat -> p <> Some r -> In r l ->
  exists h', unlink_probing fuel h p r = Ok h' /\ chain h' p (remove1 r l) /\ hframe h h' /\ (forall x, ~ In x l -> h' x = h x) /\ h' r = h r.
Proof.
  induction l as [|x t IH]; intros fuel h p r C N F D I; [destruct I|].
  cbn [chain] in C. destruct C as [-> (X & HX & C)]. destruct fuel as [|fuel]; [lia|].
  inversion N as [|? ? N1 N2]; subst. destruct I as [->|I]; [congruence|].
  assert (Dx : x <> r) by congruence.
  cbn [unlink_probing]. rewrite (hget_some _ _ _ HX). cbn [bind].
  cbn [remove1]. destruct (Nat.eqb_spec x r) as [->|_]; [congruence|].
  destruct (ptr_eqb (link X) (Some r)) eqn:E.
  - apply ptr_eqb_eq in E. rewrite E in C. destruct t as [|y t']; [cbn in C; discriminate|].
    cbn [chain] in C. destruct C as [E2 (Y & HY & C)]. inversion E2; subst y. clear E2.
    rewrite (hget_some _ _ _ HY). cbn [bind]. eexists. split; [reflexivity|]. cbn [remove1]. rewrite Nat.eqb_refl.
    inversion N2 as [|? ? N3 N4]; subst. split; [|split; [|split]].
    + cbn [chain]. split; [reflexivity|]. exists (set_link X (link Y)). split; [apply hset_same|].
      cbn [link set_link]. eapply chain_ext; [|exact C]. intros z Hz. apply hset_other. intros ->. apply N1. right. exact Hz.
    + apply hframe_set. exact HX.
    + intros z Hz. apply hset_other. intros ->. apply Hz. left. reflexivity.
    + apply hset_other. congruence.
  - apply ptr_eqb_neq in E. cbn [length] in F.
    destruct (IH fuel h (link X) r C N2 ltac:(lia) E I) as (h' & E' & C' & Fr & U & Ur).
    exists h'. split; [exact E'|]. split; [|split; [|split]]; auto.
    + cbn [chain]. split; [reflexivity|]. exists X. split; [|exact C']. rewrite U by exact N1. exact HX.
    + intros z Hz. apply U. intros K. apply Hz. right. exact K.
Qed.

(* A withdrawn record. *)
Definition gone (X : mrec) : mrec := set_rr X (set_ttl (rr X) 0).

Lemma mdnsd_done_probing : forall s qs t r X, rinv s qs -> hp s r = Some X -> probes X = true ->
  exists s', mdnsd_done s t r = Ok s' /\ rinv s' (on Probing (remove1 r (qs Probing)) qs) /\
    hp s' r = None /\ hbut r (hp s) (hp s') /\ fresh s' = fresh s /\
    uans s' = filter (fun u => negb (Nat.eqb (u_r u) r)) (uans s) /\ conflicts s' = conflicts s /\
    pub s' = upd (pub s) (rbucket (a_name (rr X))) (remove1 r (nth (rbucket (a_name (rr X))) (pub s) [])).
Proof.
  intros s qs t r X H E P. unfold mdnsd_done. rewrite (hget_some _ _ _ E). cbn [bind]. rewrite P.
  pose proof (ri_u _ _ H r X E) as U. pose proof (ri_q _ _ H) as HQ.
  assert (I : In r (qs Probing)) by (apply (ur_probing _ _ _ U); apply probes_iff; [apply U|exact P]).
  set (qs' := on Probing (remove1 r (qs Probing)) qs).
  assert (Off : off qs' r).
  { intros q. unfold qs'. destruct (queue_dec q Probing) as [->|N].
    - rewrite on_same. apply remove1_self. apply (qk_nodup _ _ HQ).
    - rewrite on_other by exact N. intros K. apply N. apply (qk_disj _ _ HQ q Probing r); assumption. }
  assert (D1 : forall k, NoDup (qs' k)).
  { intros k. unfold qs'. destruct (queue_dec k Probing) as [->|N]; [rewrite on_same; apply remove1_nodup|rewrite on_other by exact N]; apply (qk_nodup _ _ HQ). }
  assert (D2 : forall k x, In x (qs' k) -> In x (qs k)).
  { intros k x. unfold qs'. destruct (queue_dec k Probing) as [->|N]; [rewrite on_same; apply remove1_in|rewrite on_other by exact N; auto]. }
  assert (S : exists s1 X1, (if ptr_eqb (probing s) (Some r) then Ok (set_head s Probing (link X))
                          else h <- unlink_probing (qfuel s) (hp s) (probing s) r;; Ok (set_hp s h)) = Ok s1 /\
              qok s1 qs' /\ hframe (hp s) (hp s1) /\ hp s1 r = Some X1 /\ nolink X1 = nolink X /\ same_rest s s1).
  { pose proof (qk_chain _ _ HQ Probing) as C. cbn [head] in C. destruct (ptr_eqb (probing s) (Some r)) eqn:PE.
    - apply ptr_eqb_eq in PE. exists (set_head s Probing (link X)), X. split; [reflexivity|].
      split; [|split; [apply hframe_refl|split; [exact E|split; [reflexivity|repeat split]]]].
      split; [apply (qk_fresh _ _ HQ)| |exact D1|intros p q x A B; apply (qk_disj _ _ HQ p q x); auto].
      intros q. cbn [hp set_head]. unfold qs'. destruct (queue_dec q Probing) as [->|N].
      + rewrite head_set_same, on_same. rewrite PE in C. destruct (qs Probing) as [|y l] eqn:QP; [destruct I|].
        cbn [chain] in C. destruct C as [E2 (Y & HY & C)]. inversion E2; subst y. cbn [remove1]. rewrite Nat.eqb_refl.
        replace X with Y by congruence. exact C.
      + rewrite head_set_other, on_other by exact N. apply (qk_chain _ _ HQ).
    - apply ptr_eqb_neq in PE.
      destruct (unlink_probing_spec (qs Probing) (qfuel s) (hp s) (probing s) r C (qk_nodup _ _ HQ Probing) (qok_fuel _ _ _ HQ) PE I) as (h' & E' & C' & Fr & Un & Ur).
      rewrite E'. cbn [bind]. exists (set_hp s h'), X. split; [reflexivity|].
      split; [|split; [exact Fr|split; [cbn [hp set_hp]; congruence|split; [reflexivity|repeat split]]]].
      split; [| |exact D1|intros p q x A B; apply (qk_disj _ _ HQ p q x); auto].
      + intros x K. cbn [hp set_hp fresh] in *. apply (qk_fresh _ _ HQ). rewrite (hframe_none _ _ _ Fr). exact K.
      + intros q. rewrite head_hp. cbn [hp set_hp]. unfold qs'. destruct (queue_dec q Probing) as [->|N].
        * rewrite on_same. exact C'.
        * rewrite on_other by exact N. eapply chain_ext; [|apply (qk_chain _ _ HQ)].
          intros x Ix. apply Un. intros K. apply N. apply (qk_disj _ _ HQ q Probing x); assumption. }
  destruct S as (s1 & X1 & E1 & Q1 & F1 & G1 & NX & R1). rewrite E1. cbn [bind].
  destruct R1 as (R1 & R2 & R3 & R4 & R5 & R6 & R7).
  destruct (r_done_spec s1 qs' r X1 Q1) as (s' & E' & H' & Hh & Hf & Hu & _ & _ & _ & _ & Hc & Hp').
  - eapply pok_frame; [apply (ri_p _ _ H)|exact R2|exact F1].
  - eapply uaok_frame; [apply (ri_ua _ _ H)|exact R3|exact F1].
  - exact Off.
  - exact G1.
  - intros x Y N EY. destruct (hframe_some' _ _ _ _ F1 EY) as (Y0 & EY0 & NY).
    eapply urec_nolink; [apply (ri_u _ _ H x Y0 EY0)|exact NY| |].
    + unfold qs'. rewrite on_same, remove1_in_iff by apply (qk_nodup _ _ HQ). tauto.
    + unfold qs'. rewrite on_other by congruence. reflexivity.
  - pose proof (nolink_fields _ _ NX) as (NR & _).
    exists s'. split; [exact E'|]. split; [exact H'|]. split; [rewrite Hh; apply hdel_same|]. split; [|split; [congruence|split; [congruence|split; [congruence|]]]].
    + intros y N. rewrite Hh, hdel_other by exact N. apply F1.
    + rewrite Hp', R2, NR. reflexivity.
Qed.

Lemma mdnsd_done_sends : forall s qs t r X, rinv s qs -> hp s r = Some X -> probes X = false ->
  exists s', mdnsd_done s t r = Ok s' /\ rinv s' (sent_queues X r qs) /\
    hbut r (hp s) (hp s') /\ (exists Y, hp s' r = Some Y /\ nolink Y = nolink (gone X)) /\ fresh s' = fresh s /\
    uans s' = uans s /\ conflicts s' = conflicts s /\ pub s' = pub s.
Proof.
  intros s qs t r X H E P. unfold mdnsd_done. rewrite (hget_some _ _ _ E). cbn [bind]. rewrite P.
  set (s1 := set_hp s (hset (hp s) r (set_rr X (set_ttl (rr X) 0)))).
  assert (H1 : rinv s1 qs).
  { eapply rinv_set; [exact H|exact E|reflexivity|reflexivity|]. destruct (ri_u _ _ H r X E) as [U1 U2 U3 U4 U5 U6 U7]. split; assumption. }
  destruct (r_send_full s1 qs t r _ H1 (hset_same (hp s) r _)) as (s' & E' & H' & F').
  pose proof (send_time_fields s1 t (gone X)) as T. cbv zeta in T. destruct T as (T1 & T2 & T3 & T4 & T5 & T6).
  destruct F' as [(G1 & G2 & G3 & G4 & G5 & G6 & G7) F]. fold (gone X) in *. rewrite T1 in F.
  exists s'. split; [exact E'|]. split; [exact H'|]. split; [|split; [|split; [|split; [|split]]]]; try (cbn [s1 set_hp fresh pub uans conflicts] in *; congruence).
  - eapply hbut_frame_r; [apply (hbut_set (hp s) r (gone X))|exact F].
  - destruct (hframe_some _ _ _ _ F (hset_same (hp s) r _)) as (Y & EY & NY). exists Y. split; [exact EY|exact NY].
Qed.

Lemma mdnsd_done_inv : forall s qs t r X, rinv s qs -> hp s r = Some X ->
  exists s' qs', mdnsd_done s t r = Ok s' /\ rinv s' qs' /\ hbut r (hp s) (hp s') /\ fresh s' = fresh s /\
    (probes X = true -> hp s' r = None) /\ (probes X = false -> exists Y, hp s' r = Some Y /\ nolink Y = nolink (gone X)).
Proof.
  intros s qs t r X H E. destruct (probes X) eqn:P.
  - destruct (mdnsd_done_probing s qs t r X H E P) as (s' & E' & H' & N & B & F & _). exists s'; eexists.
    split; [exact E'|]. split; [exact H'|]. split; [exact B|]. split; [exact F|]. split; [auto|discriminate].
  - destruct (mdnsd_done_sends s qs t r X H E P) as (s' & E' & H' & B & Y & F & _). exists s', (sent_queues X r qs).
    split; [exact E'|]. split; [exact H'|]. split; [exact B|]. split; [exact F|]. split; [discriminate|auto].
Qed.

(* mdnsd_done and _conflict differ by the log entry. *)
Lemma r_conflict_inv : forall s qs t r X, rinv s qs -> hp s r = Some X -> unique X <> 0 ->
  exists s' qs', r_conflict s t r = Ok s' /\ rinv s' qs' /\ hbut r (hp s) (hp s') /\ fresh s' = fresh s.
Proof.
  intros s qs t r X H E U. unfold r_conflict. rewrite (hget_some _ _ _ E). cbn [bind].
  pose proof (ur_conflict _ _ _ (ri_u _ _ H r X E) U) as C. destruct (conflict X) as [cb|]; [|congruence].
  set (s1 := add_conflict s (cb, a_name (rr X), a_type (rr X))).
  assert (H1 : rinv s1 qs) by (eapply rinv_other; [exact H|reflexivity..|intros []; reflexivity]).
  destruct (mdnsd_done_inv s1 qs t r X H1 E) as (s' & qs' & E' & H' & B & F & _). exists s', qs'. auto.
Qed.
