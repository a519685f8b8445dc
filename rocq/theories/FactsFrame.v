(* What every call but mdnsd_out does to the records and queues it is not about:
   records keep their identity, leave no queue and stay on the announce queue,
   and unless their data is set keep their announcement count. *)
From Verif Require Import Base Lemmas Hash HashProofs Wire Rec Qry Out In Api RecInv RecSafe RecOps RecAddr OutSafe QryInv QryOps CacheOps QryReg QryLoop InSafe InLoop InResp OutAll OutSpec Shut DaemonInv SpecDaemon FactsCalls FactsEvolve FactsIn FactsOut.

Definition on_some (qs : queue -> list nat) (x : nat) : Prop := exists k, k <> Probing /\ In x (qs k).

Record follows (T : Prop) (qs qs' : queue -> list nat) (x : nat) (X Y : mrec) : Prop := mkfollows {
  fo_unique : unique Y = unique X;
  fo_name : a_name (rr Y) = a_name (rr X);
  fo_type : a_type (rr Y) = a_type (rr X);
  fo_ttl : a_ttl (rr Y) = a_ttl (rr X) \/ a_ttl (rr Y) = 0;
  fo_publish : In x (qs Publish) -> In x (qs' Publish);
  fo_queue : on_some qs x -> on_some qs' x;
  fo_tries : ~ T -> tries Y = tries X;
  fo_done : tries X = 4 -> tries Y = 4 \/ In x (qs' Publish);
  fo_rr : ~ T -> rr Y = rr X \/ rr Y = set_ttl (rr X) 0
}.

(* T: the records whose data may be set *)
Definition onward (T : nat -> Prop) (s : recs) (qs : queue -> list nat) (s' : recs) (qs' : queue -> list nat) : Prop :=
  (fresh s <= fresh s')%nat /\
  forall x, (x < fresh s)%nat -> match hp s x, hp s' x with
    | None, Some _ => False
    | Some X, Some Y => follows (T x) qs qs' x X Y
    | Some X, None => probes X = true
    | None, None => True
    end.

Lemma probes_as : forall X Y, unique Y = unique X -> probes Y = probes X.
Proof. intros X Y E. unfold probes. rewrite E. reflexivity. Qed.

Lemma follows_refl : forall T qs x X, follows T qs qs x X X.
Proof. intros T qs x X. split; auto. Qed.
Lemma follows_trans : forall T a b c x X Y Z, follows T a b x X Y -> follows T b c x Y Z -> follows T a c x X Z.
Proof.
  intros T a b c x X Y Z [A1 A2 A3 A4 A5 A6 A7 A9 A8] [B1 B2 B3 B4 B5 B6 B7 B9 B8]. split; try congruence; auto.
  - destruct B4 as [->|?]; auto.
  - intros N. rewrite B7, A7 by exact N. reflexivity.
  - intros E. destruct (A9 E) as [F|F]; auto.
  - intros N. destruct (B8 N) as [->| ->]; [auto|]. right. destruct (A8 N) as [->| ->]; reflexivity.
Qed.
Lemma onward_refl : forall T s qs, onward T s qs s qs.
Proof. intros T s qs. split; [apply le_n|]. intros x _. destruct (hp s x); [apply follows_refl|exact I]. Qed.
Lemma onward_trans : forall T s qs s1 qs1 s2 qs2, onward T s qs s1 qs1 -> onward T s1 qs1 s2 qs2 -> onward T s qs s2 qs2.
Proof.
  intros T s qs s1 qs1 s2 qs2 [F1 A] [F2 B]. split; [lia|]. intros x L. specialize (A x L). specialize (B x ltac:(lia)).
  destruct (hp s x) as [X|], (hp s1 x) as [Y|], (hp s2 x) as [Z|]; auto; try contradiction; [eapply follows_trans; eassumption|].
  rewrite <- (probes_as X Y); [exact B|apply (fo_unique _ _ _ _ _ _ A)].
Qed.

(* From the record-by-record description of the functions *)
Lemma onward_but : forall (T : nat -> Prop) s qs s' qs' r, fresh s' = fresh s -> hbut r (hp s) (hp s') ->
  (forall x, x <> r -> In x (qs Publish) -> In x (qs' Publish)) -> (forall x, x <> r -> on_some qs x -> on_some qs' x) ->
  (match hp s r, hp s' r with None, Some _ => False | Some X, Some Y => follows (T r) qs qs' r X Y | Some X, None => probes X = true | None, None => True end) -> onward T s qs s' qs'.
Proof.
  intros T s qs s' qs' r F B P Q K. split; [lia|]. intros x L. destruct (Nat.eq_dec x r) as [->|D]; [exact K|]. specialize (B x D).
  destruct (hp s x) as [X|], (hp s' x) as [Y|]; try discriminate; auto.
  assert (N : nolink Y = nolink X) by (symmetry; exact (f_equal (fun o => match o with Some y => y | None => nolink X end) B)).
  apply nolink_fields in N as (N1 & N2 & N3 & N4 & N5 & N6). split; try congruence; auto; try (left; congruence); rewrite N1; auto.
Qed.

Lemma enq_keeps : forall k r qs, (forall k, NoDup (qs k)) -> k <> Probing ->
  (forall x, x <> r -> In x (qs Publish) -> In x (enq k r qs Publish)) /\ (forall x, on_some qs x -> on_some (enq k r qs) x) /\ on_some (enq k r qs) r.
Proof.
  intros k r qs N Nk. assert (R : on_some (enq k r qs) r) by (exists k; split; [exact Nk|apply enq_in; auto]).
  split; [|split; [|exact R]].
  - intros x D I. apply enq_in; auto.
  - intros x (j & Nj & I). destruct (Nat.eq_dec x r) as [->|D]; [exact R|]. exists j. split; [exact Nj|apply enq_in; auto].
Qed.
Lemma send_queue_live : forall X k, send_queue X = Some k -> k <> Probing /\ k <> Publish /\ 4 <= tries X.
Proof. intros X k. unfold send_queue. destruct (tries X <? 4) eqn:E; [discriminate|]. destruct (unique X =? 0); intros [= <-]; repeat split; try discriminate; lia. Qed.
Lemma sent_keeps : forall s qs r X, rinv s qs -> hp s r = Some X ->
  (forall x, In x (qs Publish) -> In x (sent_queues X r qs Publish)) /\ (forall x, on_some qs x -> on_some (sent_queues X r qs) x).
Proof.
  intros s qs r X H E. unfold sent_queues. destruct (send_queue X) as [k|] eqn:S; [|auto]. destruct (send_queue_live X k S) as (N1 & N2 & N3).
  destruct (enq_keeps k r qs (qk_nodup _ _ (ri_q _ _ H)) N1) as (A & B & _). split; [|exact B]. intros x I. apply A; [|exact I].
  intros ->. pose proof (ur_publish _ _ _ (ri_u _ _ H r X E) I). lia.
Qed.
Lemma probing_keeps : forall l qs, (forall x, In x (qs Publish) -> In x (on Probing l qs Publish)) /\ (forall x, on_some qs x -> on_some (on Probing l qs) x).
Proof.
  intros l qs. split; [intros x I; rewrite on_other by discriminate; exact I|]. intros x (k & N & I). exists k. split; [exact N|]. rewrite on_other by exact N. exact I.
Qed.

Lemma done_onward : forall T s qs t r X, rinv s qs -> hp s r = Some X -> exists s' qs', mdnsd_done s t r = Ok s' /\ rinv s' qs' /\ onward T s qs s' qs' /\
  hbut r (hp s) (hp s') /\ (probes X = false -> (exists Y, hp s' r = Some Y /\ nolink Y = nolink (gone X)) /\ qs' = sent_queues X r qs).
Proof.
  intros T s qs t r X H E. destruct (probes X) eqn:P.
  - destruct (mdnsd_done_probing s qs t r X H E P) as (s' & E' & H' & N & B & F & _). exists s'. eexists. split; [exact E'|]. split; [exact H'|]. split; [|split; [exact B|discriminate]].
    destruct (probing_keeps (remove1 r (qs Probing)) qs) as [K1 K2]. eapply onward_but; [exact F|exact B|auto|auto|]. rewrite E, N. exact P.
  - destruct (mdnsd_done_sends s qs t r X H E P) as (s' & E' & H' & B & (Y & EY & NY) & F & _). exists s', (sent_queues X r qs). split; [exact E'|]. split; [exact H'|]. split; [|split; [exact B|intros _; split; [eauto|reflexivity]]].
    destruct (sent_keeps s qs r X H E) as [K1 K2]. eapply onward_but; [exact F|exact B|auto|auto|]. rewrite E, EY. apply nolink_fields in NY as (N1 & N2 & N3 & N4 & N5 & N6).
    cbn [gone set_rr rr unique tries] in *. split; rewrite ?N1, ?N2, ?N4; auto.
Qed.

Lemma set_onward : forall (T : nat -> Prop) s qs t r f X, rinv s qs -> keeps_id f -> hp s r = Some X -> T r ->
  exists s' qs' Y, mdnsd_set s t r f = Ok s' /\ rinv s' qs' /\ onward T s qs s' qs' /\ hbut r (hp s) (hp s') /\
    hp s' r = Some Y /\ rr Y = f (rr X) /\ unique Y = unique X /\ (probes X = false -> tries Y = 0 /\ In r (qs' Publish)).
Proof.
  intros T s qs t r f X H Kf E Tr. unfold mdnsd_set, with_rr. rewrite (hget_some _ _ _ E). cbn [bind].
  set (X1 := set_rr X (f (rr X))). set (s1 := set_hp s (hset (hp s) r X1)). destruct (Kf (rr X)) as (K1 & K2 & K3).
  assert (H1 : rinv s1 qs).
  { eapply rinv_set; [exact H|exact E|reflexivity|exact K1|]. destruct (ri_u _ _ H r X E) as [U1 U2 U3 U4 U5 U6 U7]. split; assumption. }
  assert (E1 : hp s1 r = Some X1) by apply hset_same.
  assert (B0 : hbut r (hp s) (hp s1)) by apply hbut_set.
  destruct (probes X) eqn:P.
  - change (probes X1 = true) in P. rewrite (r_publish_probes s1 t r X1 E1 P).
    exists (set_hp s1 (hset (hp s1) r (set_modified X1 true))), qs, (set_modified X1 true). split; [reflexivity|].
    assert (B : hbut r (hp s) (hp (set_hp s1 (hset (hp s1) r (set_modified X1 true))))) by (eapply hbut_trans; [exact B0|apply hbut_set]).
    assert (E2 : hp (set_hp s1 (hset (hp s1) r (set_modified X1 true))) r = Some (set_modified X1 true)) by apply hset_same.
    split. { eapply rinv_set; [exact H1|exact E1|reflexivity|reflexivity|]. destruct (ri_u _ _ H1 r X1 E1) as [U1 U2 U3 U4 U5 U6 U7]. split; assumption. }
    split; [|split; [exact B|split; [exact E2|split; [reflexivity|split; [reflexivity|discriminate]]]]].
    eapply (onward_but T s qs _ qs r); [reflexivity|exact B|auto|auto|]. rewrite E, E2. split; try reflexivity; auto; contradiction.
  - change (probes X1 = false) in P. destruct (r_publish_full s1 qs t r X1 H1 E1 P) as (s' & E' & H' & [(F1 & F2 & F3 & F4 & F5 & F6 & F7) F]).
    rewrite E'. cbn [announced set_tpublish set_hp hp fresh] in F, F1.
    assert (Er : exists Y, hp s' r = Some Y /\ nolink Y = nolink (set_tries (set_modified X1 true) 0)).
    { specialize (F r). rewrite hset_same in F. destruct (hp s' r) as [Y|]; [|discriminate]. exists Y. split; [reflexivity|].
      symmetry. exact (f_equal (fun o => match o with Some y => y | None => nolink Y end) F). }
    destruct Er as (Y & EY & NY). apply nolink_fields in NY as (N1 & N2 & N3 & N4 & N5 & N6).
    assert (B : hbut r (hp s) (hp s')).
    { intros y D. rewrite <- (F y). cbn [s1 set_hp hp]. rewrite !hset_other by exact D. reflexivity. }
    destruct (enq_keeps Publish r qs (qk_nodup _ _ (ri_q _ _ H)) ltac:(discriminate)) as (A1 & A2 & A3).
    assert (Ir : In r (enq Publish r qs Publish)) by (apply enq_in; [exact (qk_nodup _ _ (ri_q _ _ H))|auto]).
    exists s', (enq Publish r qs), Y. split; [reflexivity|]. split; [exact H'|]. split; [|split; [exact B|split; [exact EY|split; [exact N1|split; [exact N2|intros _; split; [exact N4|exact Ir]]]]]].
    apply (onward_but T s qs _ _ r F1 B); [exact A1|auto|]. rewrite E, EY. cbn [set_tries set_modified X1 set_rr rr unique] in *. split; auto; try contradiction; rewrite N1; auto.
Qed.

Lemma shared_onward : forall T s qs h ty ttl s' r, rinv s qs -> mdnsd_shared s h ty ttl = (s', r) -> onward T s qs s' qs.
Proof.
  intros T s qs h ty ttl s' r H E. destruct (mdnsd_shared_inv _ _ _ _ _ _ _ H E) as (_ & -> & F & _ & O & _). split; [lia|]. intros x L.
  rewrite (O x) by lia. destruct (hp s x); [apply follows_refl|exact I].
Qed.

Lemma unique_onward : forall T s qs t h ty ttl cb, rinv s qs -> cb <> None ->
  exists s' qs', mdnsd_unique s t h ty ttl cb = Ok (s', fresh s) /\ rinv s' qs' /\ onward T s qs s' qs'.
Proof.
  intros T s qs t h ty ttl cb H N. destruct (mdnsd_unique_inv s qs t h ty ttl cb H N) as (s' & E & H' & F & _ & O & _). exists s'. eexists. split; [exact E|]. split; [exact H'|].
  destruct (probing_keeps (fresh s :: qs Probing) qs) as [K1 K2]. split; [lia|]. intros x L. specialize (O x ltac:(lia)). destruct (hp s x) as [X|], (hp s' x) as [Y|]; try discriminate; auto.
  assert (Nx : nolink Y = nolink X) by exact (f_equal (fun o => match o with Some y => y | None => nolink X end) O).
  apply nolink_fields in Nx as (N1 & N2 & N3 & N4 & N5 & N6). split; try congruence; auto; try (left; congruence); rewrite N1; auto.
Qed.

Lemma rinv_lt : forall s qs x X, rinv s qs -> hp s x = Some X -> (x < fresh s)%nat.
Proof. intros s qs x X H E. apply (qk_fresh _ _ (ri_q _ _ H)). congruence. Qed.

(* Data that is set in between may be that of newer records *)
Lemma onward_old : forall (T T' : nat -> Prop) s qs s1 qs1 s2 qs2, onward T s qs s1 qs1 -> onward T' s1 qs1 s2 qs2 ->
  (forall x, (x < fresh s)%nat -> T' x -> T x) -> onward T s qs s2 qs2.
Proof.
  intros T T' s qs s1 qs1 s2 qs2 [F1 A] [F2 B] N. split; [lia|]. intros x L. specialize (A x L). specialize (B x ltac:(lia)).
  destruct (hp s x) as [X|], (hp s1 x) as [Y|], (hp s2 x) as [Z|]; auto; try contradiction; [|rewrite <- (probes_as X Y); [exact B|apply (fo_unique _ _ _ _ _ _ A)]]. eapply follows_trans; [exact A|].
  destruct B as [B1 B2 B3 B4 B5 B6 B7 B8]. split; auto.
Qed.

Definition none (x : nat) : Prop := False.

Lemma add_addrs_onward : forall l s qs t h ty ttl, rinv s qs -> exists s' qs', add_addrs s t h ty ttl l = Ok s' /\ rinv s' qs' /\ onward none s qs s' qs'.
Proof.
  induction l as [|i l IH]; intros s qs t h ty ttl H; cbn [add_addrs]; [exists s, qs; split; [reflexivity|split; [exact H|apply onward_refl]]|].
  destruct (has_addr_ok (hp s) (chain_of s h) h ty i (chain_of_live s h (ri_p _ _ H))) as (b & Eb & _). rewrite Eb. cbn [bind]. destruct b.
  - cbn [bind]. apply IH. exact H.
  - destruct (mdnsd_shared s h ty ttl) as [s1 r] eqn:E1. pose proof (shared_onward none _ _ _ _ _ _ _ H E1) as O1.
    destruct (mdnsd_shared_inv _ _ _ _ _ _ _ H E1) as (H1 & -> & F1 & G1 & _).
    fold (set_addr s1 t ty (fresh s) i). rewrite set_addr_eq.
    destruct (set_onward (fun x => x = fresh s) s1 qs t (fresh s) _ _ H1 (keeps_addr ty i) G1 eq_refl) as (s2 & qs2 & Y & E2 & H2 & O2 & _). rewrite E2. cbn [bind].
    destruct (IH s2 qs2 t h ty ttl H2) as (s3 & qs3 & E3 & H3 & O3). exists s3, qs3. split; [exact E3|]. split; [exact H3|].
    eapply onward_trans; [|exact O3]. eapply onward_old; [exact O1|exact O2|]. intros x L ->. lia.
Qed.

Lemma drop_addrs_onward : forall l s qs t h ty a, rinv s qs -> all_live (hp s) l -> NoDup l ->
  exists s' qs', drop_addrs s t l h ty a = Ok s' /\ rinv s' qs' /\ onward none s qs s' qs'.
Proof.
  induction l as [|x l IH]; intros s qs t h ty a H L N; cbn [drop_addrs]; [exists s, qs; split; [reflexivity|split; [exact H|apply onward_refl]]|].
  apply all_live_cons in L as [[X E] L]. apply NoDup_cons_iff in N as [N1 N2]. rewrite (hget_some _ _ _ E). cbn [bind]. destruct (_ && _ && _).
  - destruct (done_onward none s qs t x X H E) as (s1 & qs1 & E1 & H1 & O1 & B & _). rewrite E1. cbn [bind].
    destruct (IH s1 qs1 t h ty a H1) as (s2 & qs2 & E2 & H2 & O2); [|exact N2|].
    + intros y I. rewrite <- (hbut_live x _ _ y B); [apply L; exact I|]. intros ->. contradiction.
    + exists s2, qs2. split; [exact E2|]. split; [exact H2|]. eapply onward_trans; eassumption.
  - cbn [bind]. apply IH; assumption.
Qed.

Lemma update_onward : forall s qs t h ty a, rinv s qs -> exists s' qs', update_addresses s t h ty a = Ok s' /\ rinv s' qs' /\ onward none s qs s' qs'.
Proof.
  intros s qs t h ty a H. unfold update_addresses.
  destruct (mdnsd_find_ok s h ty (ri_p _ _ H)) as (o & Eo & S). rewrite Eo. cbn [bind].
  assert (T : exists ttl, match o with None => Ok 120 | Some r => X <- hget (hp s) r;; Ok (if a_ttl (rr X) =? 0 then 120 else a_ttl (rr X)) end = Ok ttl).
  { destruct o as [x|]; [|eauto]. destruct S as (X & E & _). rewrite (hget_some _ _ _ E). cbn [bind]. eauto. }
  destruct T as (ttl & Et). rewrite Et. cbn [bind].
  destruct (add_addrs_onward a s qs t h ty ttl H) as (s1 & qs1 & E1 & H1 & O1). rewrite E1. cbn [bind].
  destruct (drop_addrs_onward (chain_of s1 h) s1 qs1 t h ty a H1 (chain_of_live s1 h (ri_p _ _ H1)) (pok_chain_nodup s1 h (ri_p _ _ H1))) as (s2 & qs2 & E2 & H2 & O2).
  exists s2, qs2. split; [exact E2|]. split; [exact H2|]. eapply onward_trans; eassumption.
Qed.

Lemma hosts_onward : forall l s qs t v4 v6, rinv s qs -> exists s' qs', set_hosts s t l v4 v6 = Ok s' /\ rinv s' qs' /\ onward none s qs s' qs'.
Proof.
  induction l as [|n l IH]; intros s qs t v4 v6 H; cbn [set_hosts]; [exists s, qs; split; [reflexivity|split; [exact H|apply onward_refl]]|].
  destruct (update_onward s qs t n QTYPE_A v4 H) as (s1 & qs1 & E1 & H1 & O1). rewrite E1. cbn [bind].
  destruct (update_onward s1 qs1 t n QTYPE_AAAA v6 H1) as (s2 & qs2 & E2 & H2 & O2). rewrite E2. cbn [bind].
  destruct (IH s2 qs2 t v4 v6 H2) as (s3 & qs3 & E3 & H3 & O3). exists s3, qs3. split; [exact E3|]. split; [exact H3|]. eapply onward_trans; [exact O1|]. eapply onward_trans; eassumption.
Qed.

Lemma interface_onward : forall s qs t l n, rinv s qs -> exists s' qs', set_interface_addresses s t l n = Ok s' /\ rinv s' qs' /\ onward none s qs s' qs'.
Proof.
  intros s qs t l n H. unfold set_interface_addresses. destruct l as [l|]; [|exists s, qs; split; [reflexivity|split; [exact H|apply onward_refl]]].
  cbv zeta. destruct (host_names_ok (hp s) (concat (pub s)) [] (pub_live s (ri_p _ _ H))) as (hosts & E). rewrite E. cbn [bind]. apply hosts_onward. exact H.
Qed.

(* The records of a type *)
Definition typed (s : recs) (ty : Z) (x : nat) : Prop := exists X, hp s x = Some X /\ a_type (rr X) = ty.

Lemma typed_back : forall T s qs s' qs' ty x, onward T s qs s' qs' -> (x < fresh s)%nat -> typed s' ty x -> typed s ty x.
Proof.
  intros T s qs s' qs' ty x [_ O] L (Y & E & K). specialize (O x L). rewrite E in O. destruct (hp s x) as [X|] eqn:EX; [|contradiction]. exists X. split; [exact EX|]. rewrite <- K. symmetry. apply (fo_type _ _ _ _ _ _ O).
Qed.

Lemma all_onward : forall l s qs t ty i, rinv s qs -> all_live (hp s) l -> is_zero i = false ->
  exists s' qs', set_all s t l ty i = Ok s' /\ rinv s' qs' /\ onward (typed s ty) s qs s' qs'.
Proof.
  induction l as [|x l IH]; intros s qs t ty i H L Z; cbn [set_all]; [exists s, qs; split; [reflexivity|split; [exact H|apply onward_refl]]|].
  apply all_live_cons in L as [[X E] L]. rewrite (hget_some _ _ _ E). cbn [bind]. rewrite Z. destruct (Z.eqb_spec (a_type (rr X)) ty) as [K|K].
  - fold (set_addr s t ty x i). rewrite set_addr_eq.
    destruct (set_onward (typed s ty) s qs t x _ _ H (keeps_addr ty i) E) as (s1 & qs1 & Y & E1 & H1 & O1 & B & EY & _); [exists X; auto|]. rewrite E1. cbn [bind].
    destruct (IH s1 qs1 t ty i H1) as (s2 & qs2 & E2 & H2 & O2); [|exact Z|].
    + intros y I. destruct (Nat.eq_dec y x) as [->|N]; [congruence|]. rewrite <- (hbut_live x _ _ y B N). apply L. exact I.
    + exists s2, qs2. split; [exact E2|]. split; [exact H2|]. eapply onward_old; [exact O1|exact O2|]. intros y Ly Ty. eapply typed_back; eassumption.
  - cbn [bind]. apply IH; assumption.
Qed.

Lemma zero_onward : forall l s qs t ty i, rinv s qs -> all_live (hp s) l -> NoDup l -> (forall k x X, In x l -> hp s x = Some X -> a_type (rr X) = ty -> ~ In x (qs k)) -> is_zero i = true ->
  exists s' qs', set_all s t l ty i = Ok s' /\ rinv s' qs' /\ onward none s qs s' qs'.
Proof.
  induction l as [|r l IH]; intros s qs t ty i H L N O Z; cbn [set_all]; [exists s, qs; split; [reflexivity|split; [exact H|apply onward_refl]]|].
  apply all_live_cons in L as [(X & E) L]. apply NoDup_cons_iff in N as [Nr N]. rewrite (hget_some _ _ _ E). cbn [bind]. rewrite Z. destruct (Z.eqb_spec (a_type (rr X)) ty) as [Ty|Ty]; cbn [bind].
  - set (Y := set_link (set_rr X (set_ttl (rr X) 0)) (a_now s)). set (s1 := set_head (set_hp s (hset (hp s) r Y)) Now (Some r)).
    assert (H1 : rinv s1 (on Now (r :: qs Now) qs)).
    { eapply raw_push; [exact H|exact E|reflexivity|reflexivity|apply urec_expired; apply (ri_u _ _ H r X E)|]. intros k. exact (O k r X (or_introl eq_refl) E Ty). }
    assert (Kq : forall x k, In x (qs k) -> In x (on Now (r :: qs Now) qs k)) by (intros x k I; destruct (queue_dec k Now) as [->|D]; [rewrite on_same; right; exact I|rewrite on_other by exact D; exact I]).
    assert (O1 : onward none s qs s1 (on Now (r :: qs Now) qs)).
    { eapply (onward_but none s qs _ _ r); [reflexivity|apply hbut_set|auto|intros x _ (k & Nk & I); exists k; auto|]. rewrite E. cbn [s1 set_head set_hp hp]. rewrite hset_same.
      cbn [Y set_link set_rr rr set_ttl]. split; cbn [set_link set_rr rr set_ttl unique a_name a_type a_ttl tries]; auto. intros (k & Nk & I). exists k. auto. }
    destruct (IH s1 _ t ty i H1) as (s2 & qs2 & E2 & H2 & O2); [|exact N| |exact Z|].
    + intros x I. cbn [s1 hp set_head set_hp]. destruct (Nat.eq_dec x r) as [->|D]; [contradiction|]. rewrite hset_other by exact D. apply L. exact I.
    + intros k x X' I EX' Ty' K. assert (Dx : x <> r) by (intros ->; contradiction). cbn [s1 set_head set_hp hp] in EX'. rewrite hset_other in EX' by exact Dx. destruct (queue_dec k Now) as [->|D].
      * rewrite on_same in K. destruct K as [->|K]; [contradiction|]. exact (O Now x X' (or_intror I) EX' Ty' K).
      * rewrite on_other in K by exact D. exact (O k x X' (or_intror I) EX' Ty' K).
    + exists s2, qs2. split; [exact E2|]. split; [exact H2|]. eapply onward_trans; eassumption.
  - apply IH; auto. intros k x X' I. apply O. right. exact I.
Qed.

Lemma shutdown_onward : forall s qs, rinv s qs -> qs Probing = [] -> qs Pause = [] -> qs Publish = [] ->
  exists s' qs', shutdown_recs s = Ok s' /\ rinv s' qs' /\ onward none s qs s' qs'.
Proof.
  intros s qs H Z1 Z2 Z3. destruct (shutdown_recs_ok s qs H Z1 Z2 Z3) as (s' & E & H' & _ & F & _ & _ & _ & _ & _ & Hx). exists s'. eexists. split; [exact E|]. split; [exact H'|]. split; [lia|].
  intros x L. specialize (Hx x). destruct (hp s x) as [X|] eqn:EX, (hp s' x) as [Y|]; try discriminate; auto. cbn [option_map] in Hx.
  assert (N : nolink Y = nolink (expired X)) by exact (f_equal (fun o => match o with Some y => y | None => nolink X end) Hx).
  apply nolink_fields in N as (N1 & N2 & N3 & N4 & N5 & N6). cbn [expired set_rr rr unique tries] in *. split; rewrite ?N1, ?N2, ?N4; auto.
  - rewrite Z3. intros [].
  - intros _. exists Now. split; [discriminate|]. rewrite on_same. apply -> in_rev. apply (pk_live _ (ri_p _ _ H)). congruence.
Qed.

(* ------------------------------------------------------------------ *)
(* Incoming packets *)

Lemma question_onward : forall d me q an qs s', rinv (R d) qs ->
  let l := InLoop.asked d q in
  after (vanish (loses me q an (hp (R d)) l)) (hp (R d)) (hp s') -> fresh s' = fresh (R d) ->
  onward none (R d) qs s' (fold_left (qmove me q an (hp (R d))) l qs).
Proof.
  intros d me q an qs s' H l A F. split; [lia|]. intros x L. pose proof (A x) as Ax. destruct (hp (R d) x) as [X|] eqn:EX; [|destruct (hp s' x); [discriminate|exact I]].
  destruct (hp s' x) as [Y|] eqn:EY.
  2:{ unfold vanish, upon in Ax. destruct (mem x (loses me q an (hp (R d)) l)) eqn:M; [|discriminate]. apply mem_iff in M. unfold loses in M. destruct (is_disco q); [destruct M|].
      unfold yielding in M. apply filter_In in M as [_ M]. unfold holds in M. rewrite EX in M. unfold yields, watching in M. apply andb_prop in M as [M _]. apply andb_prop in M as [M _]. apply andb_prop in M as [M _]. exact M. }
  unfold vanish, upon in Ax. destruct (mem x (loses me q an (hp (R d)) l)) eqn:M; [discriminate|].
  assert (N : nolink Y = nolink X) by exact (f_equal (fun o => match o with Some y => y | None => nolink X end) Ax).
  pose proof (qmoves_in me q an (hp (R d)) l qs) as Q. assert (Nl : NoDup l) by (apply asked_nodup; apply H). pose proof (qk_nodup _ _ (ri_q _ _ H)) as ND.
  assert (G : goes me q an (hp (R d)) l x = None \/ exists k, goes me q an (hp (R d)) l x = Some (Some k) /\ send_queue X = Some k).
  { unfold goes. destruct (mem x l) eqn:Ml; [|auto]. rewrite EX. unfold where_to. unfold loses in M. destruct (is_disco q); [destruct (send_queue X); eauto|].
    destruct (yields me q an X) eqn:Yd.
    - exfalso. apply mem_false in M. apply M. unfold yielding. apply filter_In. split; [apply mem_iff; exact Ml|]. unfold holds. rewrite EX. exact Yd.
    - destruct (InSafe.replies q an X); [|auto]. destruct (send_queue X); eauto. }
  apply nolink_fields in N as (N1 & N2 & N3 & N4 & N5 & N6). split; try congruence; rewrite ?N1; auto; try (left; congruence).
  - intros K. apply Q; auto. destruct G as [->|(k & -> & S)]; [exact K|]. destruct (send_queue_live X k S) as (_ & _ & T). pose proof (ur_publish _ _ _ (ri_u _ _ H x X EX) K). lia.
  - intros (k & Nk & K). destruct G as [G|(j & G & S)].
    + exists k. split; [exact Nk|]. apply Q; auto. rewrite G. exact K.
    + destruct (send_queue_live X j S) as (Nj & _ & _). exists j. split; [exact Nj|]. apply Q; auto. rewrite G. reflexivity.
Qed.

Lemma questions_onward : forall qd d e from did id an qs, rinv (R d) qs -> (did = true -> ifs d = view d e) ->
  exists s' i tm L b qs', questions d e from did id qd an = Ok (answered d s' i tm (received d ++ L) b) /\ rinv s' qs' /\ onward none (R d) qs s' qs'.
Proof.
  induction qd as [|q qd IH]; intros d e from did id an qs H D.
  - cbn [questions]. exists (R d), (ifs d), (ifs_time d), [], (disco d), qs. rewrite app_nil_r. split; [destruct d; reflexivity|]. split; [exact H|apply onward_refl].
  - destruct (question_spec d e from did id q qd an qs H D) as (s1 & i1 & tm1 & L1 & did1 & E1 & Ii & Di & H1 & A1 & F1 & U1 & _). cbv zeta in *. rewrite E1.
    pose proof (question_onward d _ q an qs s1 H A1 F1) as O1. set (d1 := answered d s1 i1 tm1 (received d ++ L1) _) in *.
    assert (V1 : view d1 e = view d e).
    { unfold view, d1. destruct (e_ifs e) as [l|] eqn:Ee; [reflexivity|]. cbn [answered ifs]. destruct Ii as [->| ->]; [reflexivity|]. unfold view. rewrite Ee. reflexivity. }
    assert (D1 : did1 = true -> ifs d1 = view d1 e) by (intros K; rewrite V1; apply Di; exact K).
    destruct (IH d1 e from did1 id an _ H1 D1) as (s2 & i2 & tm2 & L2 & b2 & qs2 & E2 & H2 & O2). cbn [d1 answered R received] in *.
    exists s2, i2, tm2, (L1 ++ L2), b2, qs2. split; [rewrite E2, app_assoc; reflexivity|]. split; [exact H2|]. eapply onward_trans; eassumption.
Qed.

Lemma given_up_onward : forall T s qs s' r X, rinv s qs -> given_up s s' r X ->
  onward T s qs s' (if probes X then on Probing (remove1 r (qs Probing)) qs else sent_queues X r qs).
Proof.
  intros T s qs s' r X H (E & B & G & F & _). destruct (probes X) eqn:P; destruct G as [G _].
  - destruct (probing_keeps (remove1 r (qs Probing)) qs) as [K1 K2]. eapply onward_but; [exact F|exact B|auto|auto|]. rewrite E, G. exact P.
  - destruct G as (Y & EY & NY). destruct (sent_keeps s qs r X H E) as [K1 K2]. eapply onward_but; [exact F|exact B|auto|auto|]. rewrite E, EY. apply nolink_fields in NY as (N1 & N2 & N3 & N4 & N5 & N6).
    cbn [gone set_rr rr unique tries] in *. split; rewrite ?N1, ?N2, ?N4; auto.
Qed.

Lemma responses_onward : forall an d e from did qs, rinv (R d) qs -> qinv (Q d) -> 0 <= fst (now d) -> Forall wf_resource an -> (did = true -> ifs d = view d e) ->
  exists s' q' i tm L qs', responses d e from did an = Ok (heard d s' q' i tm (received d ++ L)) /\ rinv s' qs' /\ onward none (R d) qs s' qs'.
Proof.
  induction an as [|a an IH]; intros d e from did qs H Hq N W D.
  - cbn [responses]. exists (R d), (Q d), (ifs d), (ifs_time d), [], qs. rewrite app_nil_r. split; [destruct d; reflexivity|]. split; [exact H|apply onward_refl].
  - apply Forall_cons_iff in W as [Wa W].
    destruct (response_spec d e from did a an qs H Hq N Wa D) as (s1 & q1 & i1 & tm1 & L1 & did1 & qs1 & T1 & E1 & Ii & Di & H1 & Hq1 & Sh1 & G1 & _). cbv zeta in G1.
    assert (O1 : onward none (R d) qs s1 qs1).
    { destruct (contested d a) as [[r X]|]; [|destruct G1 as [-> ->]; apply onward_refl]. destruct (is_me d e from); [destruct G1 as [-> ->]; apply onward_refl|].
      destruct G1 as [G1 ->]. apply given_up_onward; assumption. }
    rewrite E1. set (d1 := heard d s1 q1 i1 tm1 (received d ++ L1)) in *.
    assert (V1 : view d1 e = view d e).
    { unfold view, d1. destruct (e_ifs e) as [l|] eqn:Ee; [reflexivity|]. cbn [heard ifs]. destruct Ii as [->| ->]; [reflexivity|]. unfold view. rewrite Ee. reflexivity. }
    assert (D1 : did1 = true -> ifs d1 = view d1 e) by (intros K; rewrite V1; apply Di; exact K).
    destruct (IH d1 e from did1 qs1 H1 Hq1 N W D1) as (s2 & q2 & i2 & tm2 & L2 & qs2 & E2 & H2 & O2). cbn [d1 heard R received] in *.
    exists s2, q2, i2, tm2, (L1 ++ L2), qs2. split; [rewrite E2, app_assoc; reflexivity|]. split; [exact H2|]. eapply onward_trans; eassumption.
Qed.

Lemma in_onward : forall d e m from qs, rinv (R d) qs -> calm d -> 0 <= fst (e_now e) -> wf_message m ->
  exists d' n qs', mdnsd_in d e m from = Ok (d', n) /\ rinv (R d') qs' /\ onward none (R d) qs (R d') qs'.
Proof.
  intros d e m from qs H C N W. destruct (mdnsd_in_spec d e m from qs H C N W) as (d' & n & qs' & E & A & _). rewrite E. exists d', n. destruct C as (C1 & _).
  destruct A as [?|i tm ? ? ?|i0 tm0 d' qs' X1 X2 X3 X4 E2|i0 tm0 d' qs' X1 X2 X3 X4 E2].
  - exists qs. split; [reflexivity|]. split; [exact H|apply onward_refl].
  - exists qs. split; [reflexivity|]. split; [exact H|apply onward_refl].
  - destruct (questions_onward (m_qd m) (into (with_now d (e_now e)) (R d) i0 tm0 (received d)) e from false (m_id m) (m_an m) qs H ltac:(discriminate)) as (s' & i & tm & L & b & qs2 & E3 & H2 & O2).
    rewrite E2 in E3. injection E3 as ->. exists qs2. split; [reflexivity|]. split; [exact H2|exact O2].
  - destruct (responses_onward (m_an m) (into (with_now d (e_now e)) (R d) i0 tm0 (received d)) e from false qs H C1 N W ltac:(discriminate)) as (s' & q' & i & tm & L & qs2 & E3 & H2 & O2).
    rewrite E2 in E3. injection E3 as ->. exists qs2. split; [reflexivity|]. split; [exact H2|exact O2].
Qed.

Lemma sleep_onward : forall d e qs, rinv (R d) qs -> exists d' t qs', mdnsd_sleep d e = Ok (d', t) /\ rinv (R d') qs' /\ onward none (R d) qs (R d') qs'.
Proof.
  intros d e qs H. destruct (mdnsd_sleep_spec d e qs H) as (d' & t & qs' & E & O & H'). rewrite E. exists d', t, qs'. split; [reflexivity|]. split; [exact H'|].
  destruct O as [| | | | | |s' x sec Eu Z Cq Ex Es Tp F Ep Fr]; try apply onward_refl. split; [cbn [with_R R]; lia|]. intros y L. specialize (F y). cbn [with_R R].
  destruct (hp (R d) y) as [X|], (hp s' y) as [Y|]; try discriminate; auto; try (left; congruence).
  assert (N : nolink Y = nolink X) by (symmetry; exact (f_equal (fun o => match o with Some y => y | None => nolink X end) F)).
  apply nolink_fields in N as (N1 & N2 & N3 & N4 & N5 & N6). split; try congruence; rewrite ?N1; auto; try (left; congruence).
  intros (k & _ & K). rewrite Z in K. destruct K.
Qed.

(* ------------------------------------------------------------------ *)
(* Every call but mdnsd_out and records_clear *)

(* The call sets the data of the record. *)
Definition touches (d : daemon) (o : op) (x : nat) : Prop :=
  match o with
  | OSetRaw r _ | OSetHost r _ | OSetIp r _ | OSetIp6 r _ | OSetSrv r _ _ _ _ => x = r
  | OSetAddress _ => typed (R d) QTYPE_A x
  | OSetAddress6 _ => typed (R d) QTYPE_AAAA x
  | _ => False
  end.

Lemma onward_weak : forall (T T' : nat -> Prop) s qs s' qs', onward T s qs s' qs' -> (forall x, T x -> T' x) -> onward T' s qs s' qs'.
Proof. intros T T' s qs s' qs' O K. eapply (onward_old T' T); [apply onward_refl|exact O|auto]. Qed.

Lemma step_onward : forall d e o d' x qs, rinv (R d) qs -> calm d -> legal d e o -> o <> OOut -> o <> OClear -> step d e o = Ok (d', x) ->
  exists qs', rinv (R d') qs' /\ onward (touches d o) (R d) qs (R d') qs'.
Proof.
  intros d e o d' x qs H C [N L] No Nc E.
  assert (Rset : forall r f, live d r -> keeps_id f -> touches d o r -> on_recs d (mdnsd_set (R d) (now d) r f) = Ok (d', x) -> exists qs', rinv (R d') qs' /\ onward (touches d o) (R d) qs (R d') qs').
  { intros r f Lr K T E1. apply live_some in Lr as (X & EX). destruct (set_onward (touches d o) (R d) qs (now d) r f X H K EX T) as (s' & qs' & Y & E' & H' & O' & _).
    unfold on_recs in E1. rewrite E' in E1. injection E1 as <- _. eauto. }
  assert (Ron : forall y, (exists s' qs', y = Ok s' /\ rinv s' qs' /\ onward none (R d) qs s' qs') -> on_recs d y = Ok (d', x) -> exists qs', rinv (R d') qs' /\ onward (touches d o) (R d) qs (R d') qs').
  { intros y (s' & qs' & -> & H' & O') E1. unfold on_recs in E1. injection E1 as <- _. exists qs'. split; [exact H'|]. eapply onward_weak; [exact O'|intros y []]. }
  assert (Rsame : R d' = R d -> exists qs', rinv (R d') qs' /\ onward (touches d o) (R d) qs (R d') qs').
  { intros ->. exists qs. split; [exact H|apply onward_refl]. }
  assert (Rall : forall ty i s', is_zero i = false \/ (forall r X, hp (R d) r = Some X -> a_type (rr X) = ty -> unlinked (R d) r) -> set_all (R d) (now d) (concat (pub (R d))) ty i = Ok s' ->
     exists qs', rinv s' qs' /\ onward (typed (R d) ty) (R d) qs s' qs').
  { intros ty i s' K E1. destruct (is_zero i) eqn:Zi.
    - destruct K as [?|K]; [discriminate|].
      destruct (zero_onward (concat (pub (R d))) (R d) qs (now d) ty i H (pub_live _ (ri_p _ _ H)) (pk_nodup _ (ri_p _ _ H))) as (s1 & qs1 & E2 & H2 & O2); [|exact Zi|].
      + intros k y Y _ EY Ty. exact (unlinked_off _ _ _ k H (K y Y EY Ty)).
      + rewrite E1 in E2. injection E2 as <-. exists qs1. split; [exact H2|]. eapply onward_weak; [exact O2|intros y []].
    - destruct (all_onward (concat (pub (R d))) (R d) qs (now d) ty i H (pub_live _ (ri_p _ _ H)) Zi) as (s1 & qs1 & E2 & H2 & O2). rewrite E1 in E2. injection E2 as <-. eauto. }
  destruct o; cbn [step] in E.
  - apply on_new_ok in E as (s & r0 & E1 & -> & ->). match type of E1 with Ok ?p = Ok ?q => assert (E2 : p = q) by congruence end. exists qs. split; [apply (mdnsd_shared_inv _ _ _ _ _ _ _ H E2)|]. cbn [with_R R]. eapply shared_onward; eassumption.
  - apply on_new_ok in E as (s & r0 & E1 & -> & ->). destruct (unique_onward (touches d (OUnique host type ttl cb)) (R d) qs (now d) host type ttl cb H L) as (s1 & qs1 & E2 & H2 & O2). rewrite E2 in E1. injection E1 as <- _. eauto.
  - eapply Rset; [exact L|apply keeps_raw| |exact E]. reflexivity.
  - eapply Rset; [exact L|apply keeps_host| |exact E]. reflexivity.
  - eapply Rset; [exact L|apply keeps_ip| |exact E]. reflexivity.
  - eapply Rset; [exact L|apply keeps_ip6| |exact E]. reflexivity.
  - eapply Rset; [exact L|apply keeps_srv| |exact E]. reflexivity.
  - eapply Ron; [|exact E]. apply live_some in L as (X & EX). destruct (done_onward none (R d) qs (now d) r X H EX) as (s' & qs' & E' & H' & O' & _). eauto.
  - eapply Ron; [|exact E]. apply update_onward. exact H.
  - eapply Ron; [|exact E]. apply update_onward. exact H.
  - eapply Ron; [|exact E]. apply interface_onward. exact H.
  - destruct (bytes_eqb _ _); [injection E as <- _; apply Rsame; reflexivity|]. apply bind_ok in E as (s & E1 & E). injection E as <- _. exact (Rall QTYPE_A i s L E1).
  - destruct (bytes_eqb _ _); [injection E as <- _; apply Rsame; reflexivity|]. apply bind_ok in E as (s & E1 & E). injection E as <- _. exact (Rall QTYPE_AAAA i s L E1).
  - injection E as <- _. apply Rsame. reflexivity.
  - injection E as <- _. apply Rsame. reflexivity.
  - destruct L as (L1 & L2 & L3). destruct (shutdown_onward (R d) qs H) as (s' & qs' & E1 & H' & O'); [eapply head_empty; [exact (ri_q _ _ H)|assumption]..|]. rewrite E1 in E. injection E as <- _.
    exists qs'. split; [exact H'|]. eapply onward_weak; [exact O'|intros y []].
  - congruence.
  - apply bind_ok in E as (q' & _ & E). injection E as <- _. apply Rsame. reflexivity.
  - destruct (in_onward d e m from qs H C N L) as (d1 & n & qs1 & E1 & H1 & O1). rewrite E1 in E. injection E as <- _. exists qs1. split; [exact H1|]. eapply onward_weak; [exact O1|intros y []].
  - congruence.
  - destruct (sleep_onward d e qs H) as (d1 & t & qs1 & E1 & H1 & O1). rewrite E1 in E. injection E as <- _. exists qs1. split; [exact H1|]. eapply onward_weak; [exact O1|intros y []].
  - injection E as <- _. apply Rsame. reflexivity.
Qed.
