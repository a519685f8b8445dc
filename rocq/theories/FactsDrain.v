(* mdnsd_out at a fixed time: every call that returns non-zero uses up some of
   what is left to be sent. *)
From Verif Require Import Base Lemmas Hash HashProofs Wire Rec Qry Out In Api RecInv RecSafe RecOps OutSafe OutPub OutProbe QryInv QryOps CacheOps QryLoop OutAll OutSpec DaemonInv SpecDaemon FactsCalls FactsOut.

Lemma out_given : forall d e d' m n qs, rinv (R d) qs -> calm d -> legal d e OOut -> step d e OOut = Ok (d', RMsg m n) ->
  exists qs', outcome d e qs d' m n qs' /\ rinv (R d') qs'.
Proof.
  intros d e d' m n qs H C [N L] E. pose proof C as (C1 & C2 & C3 & C4).
  destruct (mdnsd_out_spec d e qs H C1 C2 C3 L) as (d1 & m1 & n1 & qs1 & E1 & O & H1 & _). cbn [step] in E. rewrite E1 in E. cbn [bind] in E. injection E as <- <- <-. exists qs1. auto.
Qed.
Lemma rinv_same : forall s qs qs', rinv s qs -> rinv s qs' -> forall k, qs' k = qs k.
Proof.
  intros s qs qs' H H' k. pose (d := with_R (mdnsd_new (0, 0) 1 0) s).
  exact (queue_eq d qs k (qs' k) H (queue_of d qs' k H')).
Qed.

(* ------------------------------------------------------------------ *)
Fixpoint total (f : nat -> nat) (l : list nat) : nat := match l with [] => 0 | x :: l => f x + total f l end.
Lemma total_app : forall f a b, (total f (a ++ b) = total f a + total f b)%nat.
Proof. intros f a b. induction a as [|x a IH]; [reflexivity|]. cbn [total app]. lia. Qed.
Lemma total_le : forall f g l, (forall x, In x l -> (f x <= g x)%nat) -> (total f l <= total g l)%nat.
Proof. intros f g l. induction l as [|x l IH]; intros K; [apply le_n|]. cbn [total]. pose proof (K x (or_introl eq_refl)). specialize (IH (fun y I => K y (or_intror I))). lia. Qed.
Lemma total_rev : forall f l, total f (rev l) = total f l.
Proof. intros f l. induction l as [|x l IH]; [reflexivity|]. cbn [rev]. rewrite total_app, IH. cbn [total]. lia. Qed.
Lemma total_bound : forall f n l, (forall x, In x l -> (f x <= n)%nat) -> (total f l <= n * length l)%nat.
Proof. intros f n l. induction l as [|x l IH]; intros K; [cbn [total length]; lia|]. cbn [total length]. pose proof (K x (or_introl eq_refl)). specialize (IH (fun y I => K y (or_intror I))). lia. Qed.
Lemma total_incl : forall f l l', NoDup l -> incl l l' -> (total f l <= total f l')%nat.
Proof.
  intros f l. induction l as [|x l IH]; intros l' N I; [cbn [total]; lia|]. inversion N as [|? ? N1 N2]; subst. assert (Ix : In x l') by (apply I; left; reflexivity).
  apply in_split in Ix as (a & b & ->). assert (K : incl l (a ++ b)).
  { intros y Iy. specialize (I y (or_intror Iy)). apply in_app_or in I as [I|[<-|I]]; [apply in_or_app; auto|contradiction|apply in_or_app; auto]. }
  specialize (IH _ N2 K). rewrite !total_app in *. cbn [total]. lia.
Qed.

(* ------------------------------------------------------------------ *)
Definition pcost (h : heap) (x : nat) : nat := match h x with Some X => Z.to_nat (4 - tries X) | None => 0 end.
Definition bcost (h : heap) (x : nat) : nat := match h x with Some X => Z.to_nat (9 - unique X) | None => 0 end.
Definition turns (t : Z) (x : query) : nat := if asks t x then 1 else if rests t x then 2 else 0.
Definition qcost (h : nat -> option query) (t : Z) (q : nat) : nat := match h q with Some x => turns t x | None => 0 end.
Definition rwork (s : recs) (qs : queue -> list nat) : nat :=
  length (uans s) + length (qs Now) + length (qs Pause) + total (pcost (hp s)) (qs Publish) + total (bcost (hp s)) (qs Probing).
Definition qwork (q : qrys) (t : Z) : nat := total (qcost (qh q) t) (qlist q).

Lemma sent_cost : forall t l P h h' x, after (sent_rec t l P) h h' -> (pcost h' x <= pcost h x)%nat /\ (bcost h' x <= bcost h x)%nat.
Proof.
  intros t l P h h' x A. specialize (A x). unfold pcost, bcost. destruct (h x) as [X|]; [|destruct (h' x); [discriminate|lia]].
  unfold sent_rec in A. destruct (mem x l).
  - unfold replied in A. destruct (tdone X); destruct (h' x) as [Y|]; try discriminate; try lia.
    pose proof (f_equal (fun o => match o with Some y => y | None => nolink X end) A) as K. cbn beta iota in K. apply nolink_fields in K as (_ & K2 & _ & K4 & _). cbn in K2, K4. rewrite K2, K4. lia.
  - destruct (mem x P).
    + unfold OutSafe.published in A. destruct (tdone X); destruct (h' x) as [Y|]; try discriminate; try lia.
      pose proof (f_equal (fun o => match o with Some y => y | None => nolink X end) A) as K. cbn beta iota in K. apply nolink_fields in K as (_ & K2 & _ & K4 & _). cbn in K2, K4. rewrite K2, K4. lia.
    + destruct (h' x) as [Y|]; try discriminate. pose proof (f_equal (fun o => match o with Some y => y | None => nolink X end) A) as K. cbn beta iota in K. apply nolink_fields in K as (_ & K2 & _ & K4 & _). rewrite K2, K4. lia.
Qed.

(* Announcing uses up one announcement of each record. *)
Lemma announce_cost : forall t l h h' P0 P, after (sent_rec t l P0) h h' -> incl P P0 -> (forall x, In x P -> ~ In x l /\ exists X, h x = Some X /\ 0 <= tries X < 4) ->
  (total (pcost h') (stays h P) + length P <= total (pcost h) P)%nat.
Proof.
  intros t l h h' P0 P A. induction P as [|x P IH]; intros I K; [apply le_n|].
  specialize (IH (fun y J => I y (or_intror J)) (fun y J => K y (or_intror J))). destruct (K x (or_introl eq_refl)) as (Nl & X & E & T).
  unfold stays in *. cbn [filter total length]. rewrite (holds_at _ _ _ _ E). assert (C : pcost h x = Z.to_nat (4 - tries X)) by (unfold pcost; rewrite E; reflexivity).
  destruct (negb (tdone X) && (tries X + 1 <? 4)) eqn:S; [|lia]. cbn [total].
  enough (pcost h' x < pcost h x)%nat by lia. specialize (A x). rewrite E in A. unfold sent_rec in A. apply mem_false in Nl. rewrite Nl in A.
  replace (mem x P0) with true in A by (symmetry; apply mem_iff; apply I; left; reflexivity). unfold OutSafe.published in A. apply andb_prop in S as [S1 S2]. apply negb_true_iff in S1. rewrite S1 in A.
  destruct (h' x) as [Y|] eqn:EY; [|discriminate]. pose proof (f_equal (fun o => match o with Some y => y | None => nolink X end) A) as Z. cbn beta iota in Z. apply nolink_fields in Z as (_ & _ & _ & Z & _). cbn in Z.
  rewrite C. unfold pcost. rewrite EY, Z. lia.
Qed.

Lemma sent_length : forall dsc h l, (length (sent_of dsc h l) <= length l)%nat.
Proof. intros dsc h l. unfold sent_of. induction l as [|x l IH]; [apply le_n|]. cbn [filter length]. destruct (holds _ _ _); cbn [length]; lia. Qed.
Lemma sent_incl : forall dsc h l x, In x (sent_of dsc h l) -> In x l.
Proof. intros dsc h l x I. unfold sent_of in I. apply filter_In in I. tauto. Qed.

Lemma queues_apart : forall s qs k j x, rinv s qs -> In x (qs k) -> In x (qs j) -> k = j.
Proof. intros s qs k j x H I J. destruct (queue_dec k j) as [E|D]; [exact E|]. exfalso. apply D; exact (qk_disj _ _ (ri_q _ _ H) k j x I J). Qed.
Lemma publish_tries : forall s qs x, rinv s qs -> In x (qs Publish) -> exists X, hp s x = Some X /\ 0 <= tries X < 4.
Proof.
  intros s qs x H I. destruct (hp s x) as [X|] eqn:E; [|exfalso; exact (qok_live _ _ _ _ (ri_q _ _ H) I E)].
  exists X. split; [reflexivity|]. pose proof (ri_u _ _ H x X E) as U. pose proof (ur_tries _ _ _ U). pose proof (ur_publish _ _ _ U I). lia.
Qed.
Lemma probing_range : forall s qs x, rinv s qs -> In x (qs Probing) -> exists X, hp s x = Some X /\ 1 <= unique X <= 4.
Proof.
  intros s qs x H I. destruct (hp s x) as [X|] eqn:E; [|exfalso; exact (qok_live _ _ _ _ (ri_q _ _ H) I E)].
  exists X. split; [reflexivity|]. pose proof (ri_u _ _ H x X E) as U. apply (ur_probing _ _ _ U). exact I.
Qed.

(* What one message of replies and announcements uses up *)
Lemma answers_cost : forall t qs s s' N restN P restP A restA l, rinv s qs -> uans s' = uans s ->
  qs Now = N ++ restN -> qs Publish = P ++ restP -> qs Pause = A ++ restA -> (forall x, In x l -> In x N \/ In x A) -> after (sent_rec t l P) (hp s) (hp s') ->
  (rwork s' (on Pause restA (on Publish (stays (hp s) P ++ restP) (on Now restN qs))) + length N + length P + length A <= rwork s qs)%nat.
Proof.
  intros t qs s s' N restN P restP A restA l H Eu E1 E2 E3 Il Af. unfold rwork. rewrite Eu.
  change (on Pause restA (on Publish (stays (hp s) P ++ restP) (on Now restN qs)) Now) with restN.
  change (on Pause restA (on Publish (stays (hp s) P ++ restP) (on Now restN qs)) Pause) with restA.
  change (on Pause restA (on Publish (stays (hp s) P ++ restP) (on Now restN qs)) Publish) with (stays (hp s) P ++ restP).
  change (on Pause restA (on Publish (stays (hp s) P ++ restP) (on Now restN qs)) Probing) with (qs Probing).
  rewrite E1, E2, E3, !app_length, !total_app.
  assert (B : (total (bcost (hp s')) (qs Probing) <= total (bcost (hp s)) (qs Probing))%nat) by (apply total_le; intros x _; apply (sent_cost _ _ _ _ _ x Af)).
  assert (C : (total (pcost (hp s')) restP <= total (pcost (hp s)) restP)%nat) by (apply total_le; intros x _; apply (sent_cost _ _ _ _ _ x Af)).
  assert (D : (total (pcost (hp s')) (stays (hp s) P) + length P <= total (pcost (hp s)) P)%nat).
  { eapply announce_cost; [exact Af|apply incl_refl|]. intros x I. assert (J : In x (qs Publish)) by (rewrite E2; apply in_or_app; auto). split; [|eapply publish_tries; eassumption].
    intros I'. destruct (Il x I') as [Z|Z]; [assert (Z' : In x (qs Now)) by (rewrite E1; apply in_or_app; auto)|assert (Z' : In x (qs Pause)) by (rewrite E3; apply in_or_app; auto)];
      pose proof (queues_apart _ _ _ _ _ H J Z'); discriminate. }
  lia.
Qed.

(* What one probe uses up *)
Lemma probe_cost : forall t h h' l, after (upon l (probe_rec t)) h h' -> forall l0, incl l0 l -> (forall x, In x l0 -> exists X, h x = Some X /\ 1 <= unique X <= 4) ->
  (total (pcost h') (ready h l0) + total (bcost h') (asked h l0) + length l0 <= total (bcost h) l0)%nat.
Proof.
  intros t h h' l A. induction l0 as [|x l0 IH]; intros I K; [apply le_n|]. specialize (IH (fun y J => I y (or_intror J)) (fun y J => K y (or_intror J))).
  destruct (K x (or_introl eq_refl)) as (X & E & T). unfold ready, asked in *. cbn [filter total length]. rewrite !(holds_at _ _ _ _ E).
  assert (C : bcost h x = Z.to_nat (9 - unique X)) by (unfold bcost; rewrite E; reflexivity).
  specialize (A x). rewrite E in A. unfold upon in A. replace (mem x l) with true in A by (symmetry; apply mem_iff; apply I; left; reflexivity). unfold probe_rec in A.
  unfold probed in *. destruct (unique X =? 4) eqn:D; cbn [negb total] in *; (destruct (h' x) as [Y|] eqn:EY; [|discriminate]);
    pose proof (f_equal (fun o => match o with Some y => y | None => nolink X end) A) as Z; cbn beta iota in Z; apply nolink_fields in Z as (_ & Z2 & _ & Z4 & _); cbn in Z2, Z4.
  - enough (pcost h' x = 4)%nat by lia. unfold pcost. rewrite EY, Z4. reflexivity.
  - enough (bcost h' x + 1 = bcost h x)%nat by lia. rewrite C. unfold bcost. rewrite EY, Z2. lia.
Qed.
Lemma probe_other : forall t h h' l x, after (upon l (probe_rec t)) h h' -> ~ In x l -> pcost h' x = pcost h x /\ bcost h' x = bcost h x.
Proof.
  intros t h h' l x A N. specialize (A x). unfold pcost, bcost, upon in *. apply mem_false in N. rewrite N in A. destruct (h x) as [X|], (h' x) as [Y|]; try discriminate; [|auto].
  pose proof (f_equal (fun o => match o with Some y => y | None => nolink X end) A) as Z; cbn beta iota in Z; apply nolink_fields in Z as (_ & Z2 & _ & Z4 & _). rewrite Z2, Z4. auto.
Qed.
Lemma probes_cost : forall t qs s s' N restN A restA, rinv s qs -> uans s' = uans s -> qs Now = N ++ restN -> qs Pause = A ++ restA ->
  after (upon (probe_due s qs t) (probe_rec t)) (hp s) (hp s') ->
  (rwork s' (on Publish (rev (ready (hp s) (probe_due s qs t)) ++ qs Publish) (on Probing (if (tvdiff t (t_probe s) <=? 0)%Z then asked (hp s) (probe_due s qs t) else qs Probing) (on Pause restA (on Now restN qs))))
    + length (probe_due s qs t) <= rwork s qs)%nat.
Proof.
  intros t qs s s' N restN A restA H Eu E1 E3 Af. unfold rwork. rewrite Eu.
  match goal with |- context [on Publish ?a (on Probing ?b ?c)] =>
    change (on Publish a (on Probing b c) Now) with restN; change (on Publish a (on Probing b c) Pause) with restA;
    change (on Publish a (on Probing b c) Publish) with a; change (on Publish a (on Probing b c) Probing) with b end.
  rewrite E1, E3, !app_length, !total_app, total_rev.
  assert (C : (total (pcost (hp s')) (qs Publish) <= total (pcost (hp s)) (qs Publish))%nat).
  { apply total_le. intros x I. destruct (probe_other _ _ _ _ x Af) as [-> _]; [|apply le_n]. unfold probe_due. destruct (tvdiff t (t_probe s) <=? 0); [|intros []].
    intros J. pose proof (queues_apart _ _ _ _ _ H I J). discriminate. }
  unfold probe_due in *. destruct (tvdiff t (t_probe s) <=? 0).
  - pose proof (probe_cost _ _ _ _ Af (qs Probing) (incl_refl _) (fun x I => probing_range _ _ _ H I)). lia.
  - cbn [ready filter rev app total length]. assert (D : (total (bcost (hp s')) (qs Probing) <= total (bcost (hp s)) (qs Probing))%nat).
    { apply total_le. intros x I. destruct (probe_other _ _ _ _ x Af) as [_ ->]; [intros []|apply le_n]. } lia.
Qed.

(* What asking the queries uses up *)
Lemma turn_cost : forall s t x, 0 <= q_tries x <= 3 -> (turns t (after_turn s t x) + (if asks t x then 1 else 0) <= turns t x)%nat.
Proof.
  intros s t x T. unfold after_turn, turns. destruct (asks t x) eqn:A.
  - unfold asks, rests. cbn [set_qnext q_next q_tries]. replace (t + (q_tries x + 1) <=? t) with false by lia. rewrite !andb_false_r. cbn [andb]. lia.
  - destruct (rests t x) eqn:B; [|rewrite A, B; lia]. unfold asks at 1, rests at 1. cbn [set_qnext q_next q_tries]. destruct (0 <? _); cbn [andb]; [|lia]. destruct (_ <=? t); cbn; lia.
Qed.
Lemma asked_cost : forall s t l, qnum s -> (forall q, In q l -> qh s q <> None) ->
  (total (qcost (fun q => option_map (after_turn s t) (qh s q)) t) l + length (filter (asks t) (queries_at s l)) <= total (qcost (qh s) t) l)%nat.
Proof.
  intros s t l Hn. induction l as [|q l IH]; intros K; [apply le_n|]. specialize (IH (fun y I => K y (or_intror I))).
  unfold queries_at in *. cbn [flat_map total]. unfold qcost at 1 3. destruct (qh s q) as [x|] eqn:E; [|exfalso; exact (K q (or_introl eq_refl) E)].
  cbn [option_map app filter]. destruct (Hn q x E) as [T _]. pose proof (turn_cost s t x T) as C. destruct (asks t x) eqn:A; cbn [length]; lia.
Qed.

Lemma queries_cost : forall d d' t q1 m ret cb U, qinv (Q d) -> qnum (Q d) -> qinv (Q d') -> queries_out d t q1 m ret -> shrinks cb q1 (Q d') U -> (qwork (Q d') t <= qwork (Q d) t)%nat /\ (ret <> 0 -> (qwork (Q d') t < qwork (Q d) t)%nat).
Proof.
  intros d d' t q1 m ret cb U H Hn H' O S. unfold qwork.
  assert (I : incl (qlist (Q d')) (qlist (Q d))).
  { intros q I. apply (qi_live _ H') in I. destruct (qh (Q d') q) as [x|] eqn:E; [|congruence]. apply (sh_qh _ _ _ _ S) in E. apply (qi_live _ H). unfold queries_out in O.
    destruct (negb (checkq (Q d) =? 0) && (checkq (Q d) <=? t)); [destruct O as (O & _); rewrite O in E; destruct (qh (Q d) q); discriminate|destruct O as (_ & _ & O & _); congruence]. }
  assert (L : (total (qcost (qh (Q d')) t) (qlist (Q d')) <= total (qcost (qh q1) t) (qlist (Q d)))%nat).
  { etransitivity; [|apply total_incl; [exact (qi_nodup _ H')|exact I]]. apply total_le. intros q _. unfold qcost. destruct (qh (Q d') q) as [x|] eqn:E; [|lia]. apply (sh_qh _ _ _ _ S) in E. rewrite E. apply le_n. }
  unfold queries_out in O. destruct (negb (checkq (Q d) =? 0) && (checkq (Q d) <=? t)).
  - destruct O as (O & _ & R & _). assert (K : (total (qcost (qh q1) t) (qlist (Q d)) + length (filter (asks t) (queries_at (Q d) (qlist (Q d)))) <= total (qcost (qh (Q d)) t) (qlist (Q d)))%nat).
    { etransitivity; [|apply asked_cost; [exact Hn|intros q J; apply (qi_live _ H); exact J]]. apply Nat.add_le_mono_r. apply total_le. intros q _. unfold qcost. rewrite O. apply le_n. }
    split; [lia|]. intros Nz. destruct (filter _ _); [rewrite zlen_nil in R; contradiction|cbn [length] in K; lia].
  - destruct O as (_ & -> & O & _). rewrite O in L. split; [exact L|congruence].
Qed.

Definition work (d : daemon) (qs : queue -> list nat) (t : Z) : nat := (rwork (R d) qs + qwork (Q d) t)%nat.

Lemma out_works : forall d e qs d' m n qs', rinv (R d) qs -> calm d -> calm d' -> outcome d e qs d' m n qs' -> n <> 0 -> (work d' qs' (fst (e_now e)) < work d qs (fst (e_now e)))%nat.
Proof.
  intros d e qs d' m n qs' H (C1 & C2 & C3 & C4) (C1' & _) O Nz. unfold work.
  destruct O as [u us X added Eu EX G|N restN P restP s' Eu Sd E1 E2 Dp A Ua Cf Bl|N restN P restP A restA s' added all seen Eu Sd D Eall Nall Eseen Af Ua Tp Tb Cf Tq G|N restN A restA s' l Eu Sd D E1 E2 El La Af Ua Cf Tp Tb Tq|N restN A restA s' q1 q' l m ret T V Eu Sd D E1 E2 El La Af Ua Cf Tp Tb Tq QO Ql Sh Zq Uq CK TO G].
  - cbn [with_R with_now R Q]. unfold rwork. cbn [set_hp set_uans uans hp]. rewrite Eu. cbn [length].
    assert (K : forall x, pcost (hset (hp (R d)) (u_r u) (set_sent X (e_now e))) x = pcost (hp (R d)) x /\ bcost (hset (hp (R d)) (u_r u) (set_sent X (e_now e))) x = bcost (hp (R d)) x).
    { intros x. unfold pcost, bcost, hset. destruct (Nat.eqb x (u_r u)) eqn:Z; [|auto]. apply Nat.eqb_eq in Z as ->. rewrite EX. cbn [set_sent tries unique]. auto. }
    assert (K1 : (total (pcost (hset (hp (R d)) (u_r u) (set_sent X (e_now e)))) (qs Publish) <= total (pcost (hp (R d))) (qs Publish))%nat) by (apply total_le; intros x _; destruct (K x) as [-> _]; apply le_n).
    assert (K2 : (total (bcost (hset (hp (R d)) (u_r u) (set_sent X (e_now e)))) (qs Probing) <= total (bcost (hp (R d))) (qs Probing))%nat) by (apply total_le; intros x _; destruct (K x) as [_ ->]; apply le_n).
    lia.
  - cbn [with_R with_now R Q].
    assert (K := answers_cost (e_now e) qs (R d) s' N restN P restP [] (qs Pause) (sent_of (disco d) (hp (R d)) N) H ltac:(congruence) E1 E2 eq_refl
       (fun x I => or_introl (sent_incl _ _ _ _ I)) A).
    assert (Z : (0 < length N + length P)%nat).
    { pose proof (sent_length (disco d) (hp (R d)) N) as L. unfold zlen in Nz. rewrite app_length in Nz. lia. }
    assert (K0 : rwork s' (on Publish (stays (hp (R d)) P ++ restP) (on Now restN qs)) = rwork s' (on Pause (qs Pause) (on Publish (stays (hp (R d)) P ++ restP) (on Now restN qs)))) by reflexivity.
    rewrite K0. lia.
  - cbn [with_R with_now R Q]. destruct D as [D1 D2 D3 _ _ _ _ _]. unfold left_over.
    assert (K := answers_cost (e_now e) qs (R d) s' N restN P restP A restA (sent_of (disco d) (hp (R d)) N ++ sent_of (disco d) (hp (R d)) A) H ltac:(congruence) D1 D2 D3).
    assert (K' := fun P1 => K P1 Af). clear K.
    assert (Z : (0 < length N + length P + length A)%nat).
    { pose proof (sent_length (disco d) (hp (R d)) N) as L1. pose proof (sent_length (disco d) (hp (R d)) A) as L2. rewrite Eall in Nz. unfold zlen in Nz. rewrite !app_length in Nz. lia. }
    enough (Y : forall x, In x (sent_of (disco d) (hp (R d)) N ++ sent_of (disco d) (hp (R d)) A) -> In x N \/ In x A) by (specialize (K' Y); lia).
    intros x I. apply in_app_or in I as [I|I]; apply sent_incl in I; auto.
  - cbn [with_R with_now R Q]. subst l. destruct D as [D1 D2 D3 _ _ _ _ _].
    assert (K := probes_cost (e_now e) qs (R d) s' N restN A restA H ltac:(congruence) D1 D3 Af).
    unfold probe_due in *. destruct (tvdiff (e_now e) (t_probe (R d)) <=? 0) eqn:Td; [|exfalso; apply La; reflexivity].
    assert (Z : (0 < length (qs Probing))%nat) by (destruct (qs Probing); [exfalso; apply La; reflexivity|cbn [length]; lia]). lia.
  - cbn [with_expireall with_Q with_R with_now R Q] in *. subst l. destruct D as [D1 D2 D3 _ _ _ _ _].
    assert (K := probes_cost (e_now e) qs (R d) s' N restN A restA H ltac:(congruence) D1 D3 Af). rewrite La in K.
    destruct (queries_cost d (with_Q d q') (fst (e_now e)) q1 m ret (e_cb e) V C1 C2 C1' QO Sh) as [_ Y]. specialize (Y Nz). cbn [with_Q Q] in Y. lia.
Qed.

Definition busy (t : tv) (ev : event) : Prop := ev_call ev = OOut /\ e_now (ev_env ev) = t /\ exists m n, ev_result ev = RMsg m n /\ n <> 0.

Lemma works_on : forall t d0 l d, reach d0 -> history d0 l d -> (forall ev, In ev l -> busy t ev) -> forall qs, rinv (R d0) qs ->
  exists qs', rinv (R d) qs' /\ (length l + work d qs' (fst t) <= work d0 qs (fst t))%nat.
Proof.
  intros t d0 l d K Hh. induction Hh as [|l d e o x d' Hh IH Lg E]; intros B qs H; [exists qs; auto|].
  destruct (IH (fun ev I => B ev (in_or_app _ _ _ (or_introl I))) qs H) as (qs1 & H1 & L). destruct (B (mkevent d e o x d') ltac:(apply in_or_app; right; left; reflexivity)) as (B1 & B2 & m & n & B3 & Nz).
  cbn [ev_call ev_env ev_result] in B1, B2, B3. subst o x. pose proof (history_reach _ _ _ K Hh) as Rd. destruct (reach_dinv d Rd) as (qa & _ & C). destruct (reach_dinv d' (reach_step _ _ _ _ _ Rd Lg E)) as (qb & _ & C').
  destruct (out_given d e d' m n qs1 H1 C Lg E) as (qs2 & O & H2). exists qs2. split; [exact H2|]. rewrite app_length. cbn [length]. pose proof (out_works d e qs1 d' m n qs2 H1 C C' O Nz) as W. rewrite B2 in W. lia.
Qed.

Lemma drains : forall t d l d' ln la lp lb, reach d -> history d l d' -> (forall ev, In ev l -> ev_call ev = OOut /\ e_now (ev_env ev) = t /\ exists m n, ev_result ev = RMsg m n /\ n <> 0) ->
  queue_is d Now ln -> queue_is d Pause la -> queue_is d Publish lp -> queue_is d Probing lb ->
  (length l <= length (uans (R d)) + length ln + length la + 4 * length lp + 8 * length lb + 2 * length (qlist (Q d)))%nat.
Proof.
  intros t d l d' ln la lp lb K Hh B Qn Qa Qp Qb. destruct (reach_dinv d K) as (qs & H & C). destruct (works_on t d l d' K Hh B qs H) as (qs' & H' & L).
  rewrite (queue_eq d qs _ _ H Qn), (queue_eq d qs _ _ H Qa), (queue_eq d qs _ _ H Qp), (queue_eq d qs _ _ H Qb).
  assert (W : (work d qs (fst t) <= length (uans (R d)) + length (qs Now) + length (qs Pause) + 4 * length (qs Publish) + 8 * length (qs Probing) + 2 * length (qlist (Q d)))%nat); [|lia].
  unfold work, rwork, qwork.
  assert (A1 : (total (pcost (hp (R d))) (qs Publish) <= 4 * length (qs Publish))%nat) by (apply total_bound; intros x I; destruct (publish_tries _ _ _ H I) as (X & E & T); unfold pcost; rewrite E; lia).
  assert (A2 : (total (bcost (hp (R d))) (qs Probing) <= 8 * length (qs Probing))%nat) by (apply total_bound; intros x I; destruct (probing_range _ _ _ H I) as (X & E & T); unfold bcost; rewrite E; lia).
  assert (A3 : (total (qcost (qh (Q d)) (fst t)) (qlist (Q d)) <= 2 * length (qlist (Q d)))%nat) by (apply total_bound; intros x I; unfold qcost, turns; destruct (qh _ x); [destruct (asks _ _); [lia|destruct (rests _ _); lia]|lia]).
  lia.
Qed.
