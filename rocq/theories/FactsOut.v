(* Supporting proofs for PropOut.v: one message. *)
From Verif Require Import Base Lemmas Wire Rec Qry Out In Api RecInv RecSafe RecOps RecAddr OutSafe QryInv QryOps CacheOps QryLoop OutPub OutProbe OutExtra OutAll OutSpec InSafe InLoop InResp Shut DaemonInv FactsCalls FactsItems FactsEvolve FactsSize SpecDaemon.
From Coq Require Import Sorted.

Lemma out_cases : forall d e d' m n, reach d -> legal d e OOut -> step d e OOut = Ok (d', RMsg m n) ->
  exists qs qs', rinv (R d) qs /\ calm d /\ outcome d e qs d' m n qs' /\ rinv (R d') qs'.
Proof.
  intros d e d' m n K [N L] E. destruct (reach_dinv d K) as (qs & H & C). pose proof C as (C1 & C2 & C3 & C4).
  destruct (mdnsd_out_spec d e qs H C1 C2 C3 L) as (d1 & m1 & n1 & qs1 & E1 & O & H1 & _). cbn [step] in E. rewrite E1 in E. cbn [bind] in E. injection E as <- <- <-. exists qs, qs1. auto.
Qed.

(* ------------------------------------------------------------------ *)
(* Handles with their records *)

Definition with_recs (h : heap) (l : list nat) : list (nat * mrec) := flat_map (fun r => match h r with Some X => [(r, X)] | None => [] end) l.
Lemma with_recs_in : forall h l r X, In (r, X) (with_recs h l) <-> In r l /\ h r = Some X.
Proof.
  intros h l r X. unfold with_recs. rewrite in_flat_map. split.
  - intros (x & I & K). destruct (h x) as [Y|] eqn:E; [|destruct K]. destruct K as [[= <- <-]|[]]. auto.
  - intros [I E]. exists r. rewrite E. split; [exact I|left; reflexivity].
Qed.
Lemma with_recs_map : forall (A : Type) h (f : nat * mrec -> A) (g : mrec -> A) l, (forall r X, f (r, X) = g X) -> map f (with_recs h l) = flat_map (at_rec h (fun X => [g X])) l.
Proof.
  intros A h f g l K. unfold with_recs. induction l as [|x l IH]; [reflexivity|]. cbn [flat_map]. rewrite map_app, IH. f_equal. unfold at_rec. destruct (h x); [|reflexivity]. cbn [map]. rewrite K. reflexivity.
Qed.
Lemma with_recs_fst : forall h l, (forall x, In x l -> h x <> None) -> map fst (with_recs h l) = l.
Proof.
  intros h l. induction l as [|x l IH]; intros L; [reflexivity|]. unfold with_recs in *. cbn [flat_map]. rewrite map_app, IH by (intros y I; apply L; right; exact I).
  destruct (h x) eqn:E; [reflexivity|]. exfalso. apply (L x (or_introl eq_refl)). exact E.
Qed.
Lemma with_recs_len : forall h l, (forall x, In x l -> h x <> None) -> length (with_recs h l) = length l.
Proof. intros h l L. rewrite <- (map_length fst), with_recs_fst by exact L. reflexivity. Qed.

Lemma shown_as_answer : forall cls r X, as_answer cls (r, X) = shown_answer cls X.
Proof. intros cls r X. unfold as_answer, shown_answer, flushing, flush_bit. cbn [snd]. destruct (unique X =? 0); [rewrite Z.add_0_r|]; reflexivity. Qed.
Lemma shown_as_extra : forall cls r X, as_extra cls (r, X) = shown_extra cls X.
Proof. intros cls r X. unfold as_extra, shown_extra, flushing, flush_bit. cbn [snd]. destruct (unique X =? 0); [rewrite Z.add_0_r|]; reflexivity. Qed.

(* ------------------------------------------------------------------ *)
(* Queue members *)

Lemma queue_live : forall s qs k x, rinv s qs -> In x (qs k) -> hp s x <> None.
Proof. intros s qs k x H I. exact (chain_live _ _ _ _ (qk_chain _ _ (ri_q _ _ H) k) I). Qed.
Lemma queue_verified : forall s qs k x X, rinv s qs -> In x (qs k) -> k <> Probing -> hp s x = Some X -> unique X = 0 \/ unique X = 5.
Proof.
  intros s qs k x X H I D E. destruct (ri_u _ _ H x X E) as [U1 U2 _ _ _ _ _]. assert (~ 1 <= unique X <= 4); [|lia].
  intros B. apply U2 in B. apply D. eapply (qk_disj _ _ (ri_q _ _ H)); eassumption.
Qed.
Lemma sent_of_in : forall dsc h l x, In x (sent_of dsc h l) -> In x l.
Proof. intros dsc h l x I. apply filter_In in I. apply I. Qed.

Lemma nodup_app : forall (A : Type) (a b : list A), NoDup a -> NoDup b -> (forall x, In x a -> In x b -> False) -> NoDup (a ++ b).
Proof.
  intros A a b Na Nb D. induction Na as [|x a I Na IH]; [exact Nb|]. cbn [app]. constructor.
  - rewrite in_app_iff. intros [K|K]; [contradiction|]. apply (D x); [left; reflexivity|exact K].
  - apply IH. intros y I1 I2. apply (D y); [right; exact I1|exact I2].
Qed.
Lemma nodup_prefix : forall (A : Type) (a b : list A), NoDup (a ++ b) -> NoDup a.
Proof. intros A a b N. induction a as [|x a IH]; [constructor|]. apply NoDup_cons_iff in N as [I N]. constructor; [|apply IH; exact N]. intros K. apply I. apply in_or_app. left. exact K. Qed.
Lemma prefix_in : forall (qs : queue -> list nat) k N restN x, qs k = N ++ restN -> In x N -> In x (qs k).
Proof. intros qs k N restN x E I. rewrite E. apply in_or_app. left. exact I. Qed.

Lemma drained_nodup : forall s qs dsc N restN P restP A restA, rinv s qs -> qs Now = N ++ restN -> qs Publish = P ++ restP -> qs Pause = A ++ restA ->
  NoDup (sent_of dsc (hp s) N ++ P ++ sent_of dsc (hp s) A).
Proof.
  intros s qs dsc N restN P restP A restA H E1 E2 E3. pose proof (qk_nodup _ _ (ri_q _ _ H)) as Nd. pose proof (qk_disj _ _ (ri_q _ _ H)) as Dj.
  assert (NN : NoDup N) by (eapply nodup_prefix; rewrite <- E1; apply Nd). assert (NP : NoDup P) by (eapply nodup_prefix; rewrite <- E2; apply Nd). assert (NA : NoDup A) by (eapply nodup_prefix; rewrite <- E3; apply Nd).
  apply nodup_app; [apply NoDup_filter; exact NN| |].
  - apply nodup_app; [exact NP|apply NoDup_filter; exact NA|]. intros x I1 I2. apply sent_of_in in I2.
    assert (K : Publish = Pause) by (apply (Dj _ _ x); [eapply prefix_in; eassumption|eapply prefix_in; eassumption]). discriminate.
  - intros x I1 I2. apply sent_of_in in I1. apply in_app_iff in I2 as [I2|I2].
    + assert (K : Now = Publish) by (apply (Dj _ _ x); [eapply prefix_in; eassumption|eapply prefix_in; eassumption]). discriminate.
    + apply sent_of_in in I2. assert (K : Now = Pause) by (apply (Dj _ _ x); [eapply prefix_in; eassumption|eapply prefix_in; eassumption]). discriminate.
Qed.
Lemma drained_queue : forall s qs dsc N restN P restP A restA x, rinv s qs -> qs Now = N ++ restN -> qs Publish = P ++ restP -> qs Pause = A ++ restA ->
  In x (sent_of dsc (hp s) N ++ P ++ sent_of dsc (hp s) A) -> exists k, k <> Probing /\ In x (qs k).
Proof.
  intros s qs dsc N restN P restP A restA x H E1 E2 E3 I. apply in_app_iff in I as [I|I]; [apply sent_of_in in I; exists Now; split; [discriminate|eapply prefix_in; eassumption]|].
  apply in_app_iff in I as [I|I]; [exists Publish; split; [discriminate|eapply prefix_in; eassumption]|]. apply sent_of_in in I. exists Pause. split; [discriminate|eapply prefix_in; eassumption].
Qed.

Lemma sent_rec_back : forall t l P h h' x Y, after (sent_rec t l P) h h' -> h' x = Some Y -> exists X, h x = Some X /\ rr Y = rr X /\ unique Y = unique X.
Proof.
  intros t l P h h' x Y A E. specialize (A x). rewrite E in A. destruct (h x) as [X|]; [|discriminate]. exists X. split; [reflexivity|].
  unfold sent_rec, replied, OutSafe.published in A. destruct (mem x l); [destruct (tdone X)|destruct (mem x P); [destruct (tdone X)|]]; try discriminate;
    (assert (K : nolink Y = nolink X \/ True) by auto); cbn [option_map] in A; injection A as A; auto.
Qed.

Lemma filter_le : forall (A : Type) (f : A -> bool) l, (length (filter f l) <= length l)%nat.
Proof. intros A f l. induction l as [|x l IH]; [apply le_n|]. cbn [filter length]. destruct (f x); cbn [length]; lia. Qed.
Lemma answered_fold : forall l seen, (length seen + length l <= 64)%nat -> fold_left answered_add l seen = seen ++ l.
Proof.
  induction l as [|x l IH]; intros seen B; cbn [fold_left]; [symmetry; apply app_nil_r|]. cbn [length] in B. unfold answered_add at 2. replace (length seen <? 64)%nat with true by (symmetry; apply Nat.ltb_lt; lia).
  rewrite IH by (rewrite app_length; cbn [length]; lia). rewrite <- app_assoc. reflexivity.
Qed.

Lemma grows_live : forall s frm cls P m seen m' seen' added, grows s frm cls P m seen m' seen' added -> forall x, In x added -> exists X, hp s x = Some X /\ P x X.
Proof. intros s frm cls P m seen m' seen' added (_ & _ & G) x I. apply in_split in I as (a & b & E). destruct (G a x b E) as (X & EX & PX & _). eauto. Qed.
Lemma grows_nodup : forall s frm cls P m seen m' seen' added base, grows s frm cls P m seen m' seen' added -> NoDup base -> (forall x, In x base -> In x seen \/ hp s x = None) ->
  (length seen <= length base)%nat -> (length base + length added <= 64)%nat -> NoDup (base ++ added).
Proof.
  intros s frm cls P m seen m' seen' added base G Nb Kb Ls Lt. assert (L : forall a b, added = a ++ b -> NoDup (base ++ a)); [|apply (L added []); symmetry; apply app_nil_r].
  intros a. induction a as [|x a IH] using rev_ind; intros b E; [rewrite app_nil_r; exact Nb|]. rewrite <- app_assoc in E. cbn [app] in E. rewrite app_assoc.
  destruct G as (_ & _ & G). destruct (G a x b E) as (X & EX & _ & F & _). assert (La : (length a <= length added)%nat) by (rewrite E, app_length; lia). rewrite answered_fold in F by lia.
  apply nodup_app; [apply (IH (x :: b)); exact E|constructor; [intros []|constructor]|]. intros y I [<-|[]]. apply F. apply in_app_iff in I. apply in_or_app.
  destruct I as [I|I]; [|right; exact I]. destruct (Kb x I) as [K|K]; [left; exact K|congruence].
Qed.

(* ------------------------------------------------------------------ *)
(* Multicast responses *)

Lemma response_lists : forall d e d' m n, reach d -> legal d e OOut -> uans (R d) = [] -> step d e OOut = Ok (d', RMsg m n) -> o_qr m = true ->
  exists L E, items (o_calls m) = map (as_answer (class d)) L ++ map (as_extra (class d)) E /\ n = zlen L /\ NoDup (map fst L) /\
    (forall r X, In (r, X) L -> record d r X /\ (exists k, k <> Probing /\ waits d k r) /\ (unique X = 0 \/ unique X = 5)) /\
    (forall r X, In (r, X) E -> record d' r X /\ (exists X0, record d r X0 /\ rr X0 = rr X /\ unique X0 = unique X) /\ exists a A, In (a, A) L /\ goes_with d' A X) /\
    ((length L + length E <= 64)%nat -> NoDup (map fst (L ++ E))).
Proof.
  intros d e d' m n K L U E Qr. destruct (out_cases d e d' m n K L E) as (qs & qs' & H & C & O & H').
  destruct O as [u us X added Eu EX G|N restN P restP s' Eu Sd E1 E2 Dp A Ua Cf Bl|N restN P restP A restA s' added all seen Eu Sd D Eall Nall Eseen Af Ua Tp Tb Cf Tq G
    |N restN A restA s' l Eu Sd D E1 E2 El La Af Ua Cf Tp Tb Tq|N restN A restA s' q1 q' l m ret T V Eu Sd D E1 E2 El La Af Ua Cf Tp Tb Tq QO Ql Sh Zq Uq CK TO G]; try discriminate; [congruence| |].
  - set (all := sent_of (disco d) (hp (R d)) N ++ P).
    assert (NB : NoDup all). { replace all with (sent_of (disco d) (hp (R d)) N ++ P ++ sent_of (disco d) (hp (R d)) []) by (unfold all; cbn [sent_of filter]; rewrite app_nil_r; reflexivity). eapply (drained_nodup (R d) qs); [exact H|exact E1|exact E2|reflexivity]. }
    assert (QB : forall x, In x all -> exists k, k <> Probing /\ In x (qs k)). { intros x I. eapply (drained_queue (R d) qs (disco d) N restN P restP [] (qs Pause)); [exact H|exact E1|exact E2|reflexivity|]. cbn [sent_of filter]. rewrite app_nil_r. exact I. }
    assert (LB : forall x, In x all -> hp (R d) x <> None) by (intros x I; destruct (QB x I) as (k & _ & Ik); apply (queue_live (R d) qs k x); assumption).
    exists (with_recs (hp (R d)) all), []. cbn [o_calls map app]. rewrite !app_nil_r. split.
    { rewrite <- (app_nil_r (calls_of _ _ _)). rewrite items_answers by reflexivity. cbn [items]. rewrite app_nil_r. symmetry. apply with_recs_map. intros. apply shown_as_answer. }
    split; [unfold zlen; rewrite with_recs_len by exact LB; reflexivity|]. rewrite with_recs_fst by exact LB. split; [exact NB|]. split; [|split; [intros r X []|auto]].
    intros r X I. apply with_recs_in in I as [I EX]. split; [exact EX|]. destruct (QB r I) as (k & Dk & Ik). split; [exists k; split; [exact Dk|apply (waits_iff d qs k r H); exact Ik]|]. apply (queue_verified (R d) qs k r X); assumption.
  - destruct D as [D1 D2 D3 _ _ _ _ _]. subst all.
    set (all := sent_of (disco d) (hp (R d)) N ++ P ++ sent_of (disco d) (hp (R d)) A) in *.
    assert (NB : NoDup all) by (eapply (drained_nodup (R d) qs); eassumption).
    assert (QB : forall x, In x all -> exists k, k <> Probing /\ In x (qs k)) by (intros x I; eapply (drained_queue (R d) qs); eassumption).
    assert (LB : forall x, In x all -> hp (R d) x <> None) by (intros x I; destruct (QB x I) as (k & _ & Ik); apply (queue_live (R d) qs k x); assumption).
    assert (LE : forall x, In x added -> hp s' x <> None) by (intros x I; destruct (grows_live _ _ _ _ _ _ _ _ _ G x I) as (X & EX & _); congruence).
    exists (with_recs (hp (R d)) all), (with_recs (hp s') added). cbn [o_calls]. split.
    { rewrite items_response. f_equal; symmetry; apply with_recs_map; intros; [apply shown_as_answer|apply shown_as_extra]. }
    split; [unfold zlen; rewrite with_recs_len by exact LB; reflexivity|]. rewrite map_app. rewrite !with_recs_fst by assumption. split; [exact NB|]. split; [|split].
    + intros r X I. apply with_recs_in in I as [I EX]. split; [exact EX|]. destruct (QB r I) as (k & Dk & Ik). split; [exists k; split; [exact Dk|apply (waits_iff d qs k r H); exact Ik]|]. apply (queue_verified (R d) qs k r X); assumption.
    + intros r X I. apply with_recs_in in I as [I EX]. split; [exact EX|]. split; [destruct (sent_rec_back _ _ _ _ _ _ _ Af EX) as (X0 & F1 & F2 & F3); exists X0; split; [exact F1|split; congruence]|].
      destruct (grows_live _ _ _ _ _ _ _ _ _ G r I) as (X' & EX' & a & Y & Ia & Ea & Acc). replace X' with X in * by congruence. clear X' EX'.
      destruct (sent_rec_back _ _ _ _ _ _ _ Af Ea) as (Y0 & EY0 & RY & _). exists a, Y0. split; [apply with_recs_in; auto|]. unfold goes_with, accompanies, of_instance, OutExtra.address_of, is_addr, address_of, record in *. rewrite <- RY.
      cbn [with_R R]. destruct Acc as [Acc|(A1 & A2 & A3)]; [left|right]; tauto.
    + rewrite !with_recs_len by assumption. intros B. eapply grows_nodup; [exact G|exact NB| | |exact B].
      * intros x I. destruct (hp (R d) x) as [X|] eqn:EX; [|right; eapply OutSafe.after_none; [exact Af|exact EX]]. destruct (tdone X) eqn:Td.
        -- right. assert (K' : option_map nolink (hp s' x) = None).
           { rewrite (Af x), EX. unfold sent_rec. unfold all in I. apply in_app_iff in I as [I|I].
             - replace (mem x (sent_of (disco d) (hp (R d)) N ++ sent_of (disco d) (hp (R d)) A)) with true by (symmetry; apply mem_iff; apply in_or_app; left; exact I). unfold replied. rewrite Td. reflexivity.
             - apply in_app_iff in I as [I|I].
               + destruct (mem x (_ ++ _)); [unfold replied; rewrite Td; reflexivity|]. replace (mem x P) with true by (symmetry; apply mem_iff; exact I). unfold OutSafe.published. rewrite Td. reflexivity.
               + replace (mem x (sent_of (disco d) (hp (R d)) N ++ sent_of (disco d) (hp (R d)) A)) with true by (symmetry; apply mem_iff; apply in_or_app; right; exact I). unfold replied. rewrite Td. reflexivity. }
           destruct (hp s' x); [discriminate|reflexivity].
        -- left. rewrite Eseen, answered_fold; [apply filter_In; split; [exact I|]; rewrite (holds_at _ _ _ _ EX), Td; reflexivity|].
           cbn [length]. pose proof (filter_le _ (holds (hp (R d)) (fun X => negb (tdone X))) all) as Fl. unfold kept_of. lia.
      * rewrite Eseen. pose proof (filter_le _ (holds (hp (R d)) (fun X => negb (tdone X))) all) as Fl. rewrite answered_fold; unfold kept_of; cbn [app length]; lia.
Qed.

(* ------------------------------------------------------------------ *)
(* Unicast replies *)

Lemma unicast_lists : forall d e d' m n u us, reach d -> legal d e OOut -> uans (R d) = u :: us -> step d e OOut = Ok (d', RMsg m n) ->
  exists X E, record d (u_r u) X /\ o_qr m = true /\ items (o_calls m) = IQuestion (a_name (rr X)) (a_type (rr X)) (class d) :: shown SAn (class d) X :: map (as_extra (class d)) E /\
    (forall r Y, In (r, Y) E -> record d r Y /\ goes_with d X Y) /\ ((length E < 64)%nat -> NoDup (u_r u :: map fst E)).
Proof.
  intros d e d' m n u us K L U E. destruct (out_cases d e d' m n K L E) as (qs & qs' & H & C & O & H').
  destruct O as [u0 us0 X added Eu EX G|N restN P restP s' Eu Sd E1 E2 Dp A Ua Cf Bl|N restN P restP A restA s' added all seen Eu Sd D Eall Nall Eseen Af Ua Tp Tb Cf Tq G
    |N restN A restA s' l Eu Sd D E1 E2 El La Af Ua Cf Tp Tb Tq|N restN A restA s' q1 q' l m ret T V Eu Sd D E1 E2 El La Af Ua Cf Tp Tb Tq QO Ql Sh Zq Uq CK TO G]; try congruence.
  assert (u0 = u) by congruence. subst u0. assert (LE : forall x, In x added -> hp (R d) x <> None) by (intros x I; destruct (grows_live _ _ _ _ _ _ _ _ _ G x I) as (Y & EY & _); congruence).
  exists X, (with_recs (hp (R d)) added). split; [exact EX|]. split; [reflexivity|]. cbn [o_calls]. split; [|split].
  - rewrite items_unicast. f_equal. f_equal. symmetry. apply with_recs_map. intros. apply shown_as_extra.
  - intros r Y I. apply with_recs_in in I as [I EY]. split; [exact EY|]. destruct (grows_live _ _ _ _ _ _ _ _ _ G r I) as (Y' & EY' & Acc). replace Y' with Y in * by congruence.
    unfold goes_with, accompanies, of_instance, OutExtra.address_of, is_addr, address_of, record in *. destruct Acc as [Acc|(A1 & A2 & A3)]; [left|right]; tauto.
  - rewrite with_recs_len, with_recs_fst by exact LE. intros B. change (u_r u :: added) with ([u_r u] ++ added). eapply grows_nodup; [exact G| | | |].
    + constructor; [intros []|constructor].
    + intros x I. left. exact I.
    + apply le_n.
    + cbn [length]. lia.
Qed.

(* ------------------------------------------------------------------ *)
(* Probes and queries *)

Definition calling (cls : Z) (i : item) : Prop := class_of i = cls /\ section_of i <> 3%nat.

Lemma flat_Forall : forall (A B : Type) (P : B -> Prop) (f : A -> list B) l, (forall x, In x l -> Forall P (f x)) -> Forall P (flat_map f l).
Proof. intros A B P f l H. induction l as [|x l IH]; [constructor|]. cbn [flat_map]. apply Forall_app. split; [apply H; left; reflexivity|apply IH; intros y I; apply H; right; exact I]. Qed.

Lemma asking_items : forall d e d' m n, reach d -> legal d e OOut -> step d e OOut = Ok (d', RMsg m n) -> o_qr m = false ->
  uans (R d) = [] /\ exists a b, items (o_calls m) = a ++ b /\ Forall (fun i => section_of i = 0%nat /\ class_of i = class d) a /\
    (Forall (fun i => section_of i = 2%nat /\ class_of i = class d) b \/ Forall (fun i => section_of i = 1%nat /\ class_of i = class d) b).
Proof.
  intros d e d' m n K L E Qr. destruct (out_cases d e d' m n K L E) as (qs & qs' & H & C & O & H').
  destruct O as [u0 us0 X added Eu EX G|N restN P restP s' Eu Sd E1 E2 Dp A Ua Cf Bl|N restN P restP A restA s' added all seen Eu Sd D Eall Nall Eseen Af Ua Tp Tb Cf Tq G
    |N restN A restA s' l Eu Sd D E1 E2 El La Af Ua Cf Tp Tb Tq|N restN A restA s' q1 q' l m ret T V Eu Sd D E1 E2 El La Af Ua Cf Tp Tb Tq QO Ql Sh Zq Uq CK TO G]; try discriminate; (split; [exact Eu|]); cbn [o_calls].
  - rewrite items_probe. eexists. eexists. split; [reflexivity|]. split; [|left]; apply flat_Forall; intros x _; unfold at_rec; destruct (hp (R d) x) as [X|]; try constructor; destruct (probed X); repeat constructor.
  - unfold queries_out in QO. destruct (_ && _).
    + destruct QO as (_ & (ks & -> & _) & _). rewrite items_query. eexists. eexists. split; [reflexivity|]. split; [|right]; apply Forall_forall; intros i I; apply in_map_iff in I as (x & <- & _); split; reflexivity.
    + destruct QO as (-> & _). exists [], []. split; [reflexivity|]. split; [constructor|left; constructor].
Qed.

(* ------------------------------------------------------------------ *)
(* C36 *)

Lemma sorted_app : forall a b k, Forall (fun n => n <= k)%nat a -> Forall (fun n => k <= n)%nat b -> Sorted le a -> Sorted le b -> Sorted le (a ++ b).
Proof.
  intros a b k. induction a as [|x a IH]; intros A B Sa Sb; [exact Sb|]. apply Forall_cons_iff in A as [Ax A]. apply Sorted_inv in Sa as [Sa Hd]. cbn [app]. constructor; [apply IH; assumption|].
  destruct a as [|y a]; cbn [app]; [|constructor; inversion Hd; assumption]. destruct b as [|y b]; constructor. inversion B; subst. lia.
Qed.
Lemma sorted_const : forall (l : list nat) k, Forall (fun n => n = k) l -> Sorted le l.
Proof. induction l as [|x l IH]; intros k F; [constructor|]. apply Forall_cons_iff in F as [-> F]. constructor; [eapply IH; exact F|]. destruct l as [|y l]; constructor. inversion F; subst. apply le_n. Qed.
Lemma sorted_const_app : forall a b j k, (j <= k)%nat -> Forall (fun n => n = j) a -> Forall (fun n => n = k) b -> Sorted le (a ++ b).
Proof.
  intros a b j k B Fa Fb. apply (sorted_app a b j); [eapply Forall_impl; [|exact Fa]; cbn beta; lia|eapply Forall_impl; [|exact Fb]; cbn beta; lia|eapply sorted_const; exact Fa|eapply sorted_const; exact Fb].
Qed.
Lemma sections_of : forall (A : Type) (f : A -> item) k l, (forall x, section_of (f x) = k) -> Forall (fun n => n = k) (map section_of (map f l)).
Proof. intros A f k l K. rewrite map_map. apply Forall_forall. intros n I. apply in_map_iff in I as (x & <- & _). apply K. Qed.

Lemma message_sections : forall d e d' m n, reach d -> legal d e OOut -> step d e OOut = Ok (d', RMsg m n) ->
  Sorted le (map section_of (items (o_calls m))) /\
  (o_qr m = true -> uans (R d) = [] -> forall i, says m i -> section_of i = 1%nat \/ section_of i = 3%nat) /\
  (o_qr m = true -> uans (R d) <> [] -> forall i, says m i -> section_of i <> 2%nat) /\
  (o_qr m = false -> forall i, says m i -> section_of i <> 3%nat).
Proof.
  intros d e d' m n K L E. destruct (uans (R d)) as [|u us] eqn:U.
  - destruct (o_qr m) eqn:Qr.
    + destruct (response_lists d e d' m n K L U E Qr) as (La & Lx & Ei & _). unfold says. rewrite Ei, map_app. split; [|split; [|split; [congruence|discriminate]]].
      * apply (sorted_const_app _ _ 1 3); [lia|apply sections_of; reflexivity|apply sections_of; reflexivity].
      * intros _ _ i I. apply in_app_iff in I as [I|I]; apply in_map_iff in I as (p & <- & _); auto.
    + destruct (asking_items d e d' m n K L E Qr) as (_ & a & b & Ei & Fa & Fb). unfold says. rewrite Ei, map_app.
      assert (Ma : Forall (fun n => n = 0%nat) (map section_of a)) by (apply Forall_map; eapply Forall_impl; [|exact Fa]; intros i [I _]; exact I).
      split; [|split; [discriminate|split; [discriminate|]]].
      * destruct Fb as [Fb|Fb]; (assert (Mb : exists k, Forall (fun n => n = k) (map section_of b)) by (eexists; apply Forall_map; eapply Forall_impl; [|exact Fb]; intros i [I _]; exact I)); destruct Mb as (k & Mb);
          apply (sorted_const_app _ _ 0 k); auto; lia.
      * intros _ i I. rewrite Forall_forall in Fa. apply in_app_iff in I as [I|I]; [apply Fa in I as [I _]; lia|]. destruct Fb as [Fb|Fb]; rewrite Forall_forall in Fb; apply Fb in I as [I _]; lia.
  - destruct (unicast_lists d e d' m n u us K L U E) as (X & Lx & EX & Qr & Ei & _). unfold says. rewrite Ei, Qr. split; [|split; [discriminate|split; [|discriminate]]].
    + cbn [map section_of shown]. change (0%nat :: 1%nat :: map section_of (map (as_extra (class d)) Lx)) with ([0%nat; 1%nat] ++ map section_of (map (as_extra (class d)) Lx)).
      pose proof (sections_of _ (as_extra (class d)) 3%nat Lx (fun x => eq_refl)) as F.
      apply (sorted_app _ _ 1); [repeat constructor|eapply Forall_impl; [|exact F]; cbn beta; lia|repeat constructor|eapply sorted_const; exact F].
    + intros _ _ i [<-|[<-|I]]; [discriminate|discriminate|]. apply in_map_iff in I as (p & <- & _). discriminate.
Qed.

(* ------------------------------------------------------------------ *)
(* Which records are unique *)

Definition same_kind (X Y : mrec) : Prop := unique X = unique Y.

Lemma probe_due_in : forall s qs t x, In x (probe_due s qs t) -> In x (qs Probing).
Proof. intros s qs t x I. unfold probe_due in I. destruct (_ <=? 0); [exact I|destruct I]. Qed.

Lemma outcome_kind : forall d e qs d' m n qs' r Y, rinv (R d) qs -> outcome d e qs d' m n qs' -> record d' r Y -> exists X, record d r X /\ rr Y = rr X /\ (unique Y = 0 <-> unique X = 0).
Proof.
  intros d e qs d' m n qs' r Y H O EY. unfold record in *.
  destruct O as [u0 us0 X added Eu EX G|N restN P restP s' Eu Sd E1 E2 Dp A Ua Cf Bl|N restN P restP A restA s' added all seen Eu Sd D Eall Nall Eseen Af Ua Tp Tb Cf Tq G
    |N restN A restA s' l Eu Sd D E1 E2 El La Af Ua Cf Tp Tb Tq|N restN A restA s' q1 q' l m ret T V Eu Sd D E1 E2 El La Af Ua Cf Tp Tb Tq QO Ql Sh Zq Uq CK TO G]; cbn [with_expireall with_Q with_R R set_hp hp set_uans] in EY.
  - unfold hset in EY. destruct (Nat.eqb_spec r (u_r u0)) as [->|Dr]; [injection EY as <-; exists X; split; [exact EX|split; [reflexivity|reflexivity]]|exists Y; split; [exact EY|split; reflexivity]].
  - destruct (sent_rec_back _ _ _ _ _ _ _ A EY) as (X & EX & E3 & E4). exists X. rewrite E4. split; [exact EX|]. split; [exact E3|reflexivity].
  - destruct (sent_rec_back _ _ _ _ _ _ _ Af EY) as (X & EX & E3 & E4). exists X. rewrite E4. split; [exact EX|]. split; [exact E3|reflexivity].
  - pose proof (Af r) as K. rewrite EY in K. destruct (hp (R d) r) as [X|] eqn:EX; [|discriminate]. exists X. split; [reflexivity|]. unfold upon, probe_rec in K. destruct (mem r l) eqn:M.
    + apply mem_iff in M. rewrite El in M. apply probe_due_in in M. apply (ur_probing _ _ _ (ri_u _ _ H r X EX)) in M. destruct (probed X); cbn [option_map] in K; injection K as K; split; try congruence; lia.
    + cbn [option_map] in K; injection K as K. split; [congruence|]. lia.
  - pose proof (Af r) as K. rewrite EY in K. destruct (hp (R d) r) as [X|] eqn:EX; [|discriminate]. exists X. split; [reflexivity|]. unfold upon, probe_rec in K. destruct (mem r l) eqn:M.
    + apply mem_iff in M. rewrite El in M. apply probe_due_in in M. apply (ur_probing _ _ _ (ri_u _ _ H r X EX)) in M. destruct (probed X); cbn [option_map] in K; injection K as K; split; try congruence; lia.
    + cbn [option_map] in K; injection K as K. split; [congruence|]. lia.
Qed.

Lemma arrival_kind : forall d e m from qs d' n qs' r Y, rinv (R d) qs -> calm d -> 0 <= fst (e_now e) -> wf_message m -> arrival d e m from qs d' n qs' -> record d' r Y ->
  exists X, record d r X /\ unique Y = unique X.
Proof.
  intros d e m from qs d' n qs' r Y H C N W A EY. unfold record in *. destruct C as (C1 & _). destruct A as [?|i tm|i0 tm0 d' qs' ? ? ? ? E|i0 tm0 d' qs' ? ? ? ? E].
  - exists Y. auto.
  - exists Y. auto.
  - set (d1 := into (with_now d (e_now e)) (R d) i0 tm0 (received d)) in *.
    destruct (questions_sound (m_qd m) d1 e from false (m_id m) (m_an m) qs H ltac:(discriminate)) as (s' & i' & tm' & L' & b & qs2 & Cf & E' & _ & _ & _ & F & _). rewrite E' in E. injection E as <-.
    cbn [answered R] in EY. change (R d1) with (R d) in F. destruct (F r) as [F1|[F1 _]]; [|change (hp s' r = Some Y) in EY; congruence]. change (hp s' r = Some Y) in EY. rewrite EY in F1. destruct (hp (R d) r) as [X|]; [|discriminate].
    exists X. split; [reflexivity|]. cbn [option_map] in F1. injection F1 as F1. congruence.
  - set (d1 := into (with_now d (e_now e)) (R d) i0 tm0 (received d)) in *.
    destruct (responses_sound (m_an m) d1 e from false qs H C1 N W ltac:(discriminate)) as (s' & q' & i' & tm' & L' & qs2 & T & Cf & E' & _ & _ & _ & _ & F & _). rewrite E' in E. injection E as <-.
    change (hp s' r = Some Y) in EY. specialize (F r). change (R d1) with (R d) in F. destruct (hp (R d) r) as [X|]; [|congruence]. exists X. split; [reflexivity|]. rewrite EY in F. cbn [fate] in F.
    destruct F as [F|(_ & _ & F)]; apply nolink_fields in F as (_ & F & _); exact F.
Qed.

Lemma kind_refl : forall X, same_kind X X. Proof. reflexivity. Qed.
Lemma kind_trans : forall X Y Z, same_kind X Y -> same_kind Y Z -> same_kind X Z. Proof. unfold same_kind. congruence. Qed.
Lemma kind_link : forall X p, same_kind X (set_link X p). Proof. reflexivity. Qed.
Lemma kind_mod : forall X b, same_kind X (set_modified X b). Proof. reflexivity. Qed.
Lemma kind_tries : forall X t, same_kind X (set_tries X t). Proof. reflexivity. Qed.
Lemma kind_rr : forall X (f : answer -> answer), keeps_id f -> same_kind X (set_rr X (f (rr X))). Proof. reflexivity. Qed.
Lemma kind_ttl : forall X, same_kind X (set_rr X (set_ttl (rr X) 0)). Proof. reflexivity. Qed.

(* A record is new, or it was there and is of the same kind. *)
Lemma step_kind : forall d e o d' x r Y, reach d -> legal d e o -> step d e o = Ok (d', x) -> record d' r Y ->
  (exists X, record d r X /\ (unique Y = 0 <-> unique X = 0) /\ x <> RRec r) \/
  ((fresh (R d) <= r)%nat /\ (unique Y <> 0 <-> (exists h ty ttl cb, o = OUnique h ty ttl cb) /\ x = RRec r)).
Proof.
  intros d e o d' x r Y K L E EY. destruct (reach_dinv d K) as (qs & H & C). unfold record in *.
  assert (Bd : bounded (R d)) by (intros y Z EZ; apply (qk_fresh _ _ (ri_q _ _ H)); congruence).
  assert (S : sevo same_kind (R d) (R d') -> (forall h ty ttl cb, o <> OUnique h ty ttl cb) -> (forall y, x = RRec y -> y = fresh (R d)) ->
    (exists X, hp (R d) r = Some X /\ (unique Y = 0 <-> unique X = 0) /\ x <> RRec r) \/ ((fresh (R d) <= r)%nat /\ (unique Y <> 0 <-> (exists h ty ttl cb, o = OUnique h ty ttl cb) /\ x = RRec r))).
  { intros S No Rx. destruct (S Bd) as (_ & _ & S1 & S2). destruct (le_lt_dec (fresh (R d)) r) as [D|D].
    - right. destruct (S2 r Y D EY) as (n & ty & ttl & Q). unfold same_kind in Q. cbn [new_rec unique] in Q. split; [exact D|].
      split; [intros; lia|]. intros ((h & ty' & ttl' & cb & ->) & _). exfalso. eapply No. reflexivity.
    - left. destruct (S1 r Y D EY) as (X & EX & Q). exists X. unfold same_kind in Q. split; [exact EX|]. split; [lia|]. intros Q2. apply Rx in Q2. lia. }
  assert (S' : hp (R d') = hp (R d) -> (forall y, x <> RRec y) ->
    (exists X, hp (R d) r = Some X /\ (unique Y = 0 <-> unique X = 0) /\ x <> RRec r) \/ ((fresh (R d) <= r)%nat /\ (unique Y <> 0 <-> (exists h ty ttl cb, o = OUnique h ty ttl cb) /\ x = RRec r))).
  { intros Q Nx. left. exists Y. split; [congruence|]. split; [reflexivity|apply Nx]. }
  assert (SE : forall f, hevo same_kind (hp (R d)) (hp f) /\ fresh f = fresh (R d) -> sevo same_kind (R d) f) by (intros f [? ?]; apply (hevo_sevo same_kind kind_refl kind_trans kind_link kind_mod kind_tries kind_rr kind_ttl); split; assumption).
  destruct o; cbn [step] in E.
  - apply on_new_ok in E as (s & r0 & E1 & -> & ->). match type of E1 with Ok ?p = Ok ?q => assert (E2 : p = q) by congruence end. clear E1. rename E2 into E1. destruct (mdnsd_shared_evo same_kind kind_refl kind_trans kind_link kind_mod kind_tries kind_rr kind_ttl _ _ _ _ _ _ E1) as (Q & -> & _). apply S; [exact Q|discriminate|]. intros y [= <-]. reflexivity.
  - apply on_new_ok in E as (s & r0 & E1 & -> & ->). cbn [with_R R] in EY. destruct L as [_ L].
    match type of E1 with mdnsd_unique _ _ ?h ?ty ?ttl ?cb = _ => destruct (mdnsd_unique_inv (R d) qs (now d) h ty ttl cb H L) as (s1 & E2 & H2 & F2 & (Y2 & EY2 & NY2) & O2 & _) end.
    rewrite E2 in E1. injection E1 as <- <-. destruct (Nat.eq_dec r (fresh (R d))) as [->|D].
    + right. split; [apply le_n|]. replace Y2 with Y in * by congruence. pose proof (f_equal unique NY2) as Q. cbn [unique nolink set_link] in Q.
      change (unique Y = 1) in Q. split; [intros _; split; [eauto 6|reflexivity]|lia].
    + left. specialize (O2 r D). rewrite EY in O2. destruct (hp (R d) r) as [X|]; [|discriminate]. exists X. split; [reflexivity|]. cbn [option_map] in O2. injection O2 as O2. split; [lia|]. intros [= Q]. congruence.
  - apply on_recs_ok in E as (s & E1 & -> & ->). apply S; [|discriminate|discriminate]. apply SE. eapply (mdnsd_set_evo same_kind kind_refl kind_trans kind_link kind_mod kind_tries kind_rr); [apply keeps_raw|exact E1].
  - apply on_recs_ok in E as (s & E1 & -> & ->). apply S; [|discriminate|discriminate]. apply SE. eapply (mdnsd_set_evo same_kind kind_refl kind_trans kind_link kind_mod kind_tries kind_rr); [apply keeps_host|exact E1].
  - apply on_recs_ok in E as (s & E1 & -> & ->). apply S; [|discriminate|discriminate]. apply SE. eapply (mdnsd_set_evo same_kind kind_refl kind_trans kind_link kind_mod kind_tries kind_rr); [apply keeps_ip|exact E1].
  - apply on_recs_ok in E as (s & E1 & -> & ->). apply S; [|discriminate|discriminate]. apply SE. eapply (mdnsd_set_evo same_kind kind_refl kind_trans kind_link kind_mod kind_tries kind_rr); [apply keeps_ip6|exact E1].
  - apply on_recs_ok in E as (s & E1 & -> & ->). apply S; [|discriminate|discriminate]. apply SE. eapply (mdnsd_set_evo same_kind kind_refl kind_trans kind_link kind_mod kind_tries kind_rr); [apply keeps_srv|exact E1].
  - apply on_recs_ok in E as (s & E1 & -> & ->). apply S; [|discriminate|discriminate]. apply SE. eapply (mdnsd_done_evo same_kind kind_refl kind_trans kind_link kind_ttl). exact E1.
  - apply on_recs_ok in E as (s & E1 & -> & ->). apply S; [|discriminate|discriminate]. eapply (update_addresses_evo same_kind kind_refl kind_trans kind_link kind_mod kind_tries kind_rr kind_ttl). exact E1.
  - apply on_recs_ok in E as (s & E1 & -> & ->). apply S; [|discriminate|discriminate]. eapply (update_addresses_evo same_kind kind_refl kind_trans kind_link kind_mod kind_tries kind_rr kind_ttl). exact E1.
  - apply on_recs_ok in E as (s & E1 & -> & ->). apply S; [|discriminate|discriminate]. eapply (set_interface_addresses_evo same_kind kind_refl kind_trans kind_link kind_mod kind_tries kind_rr kind_ttl). exact E1.
  - destruct (bytes_eqb _ _); [injection E as <- <-; apply S'; [reflexivity|discriminate]|]. apply bind_ok in E as (s & E1 & E). injection E as <- <-. apply S; [|discriminate|discriminate].
    eapply (set_all_evo same_kind kind_refl kind_trans kind_link kind_mod kind_tries kind_rr kind_ttl). exact E1.
  - destruct (bytes_eqb _ _); [injection E as <- <-; apply S'; [reflexivity|discriminate]|]. apply bind_ok in E as (s & E1 & E). injection E as <- <-. apply S; [|discriminate|discriminate].
    eapply (set_all_evo same_kind kind_refl kind_trans kind_link kind_mod kind_tries kind_rr kind_ttl). exact E1.
  - injection E as <- <-. apply S'; [reflexivity|discriminate].
  - injection E as <- <-. apply S'; [reflexivity|discriminate].
  - apply bind_ok in E as (s & E1 & E). injection E as <- <-. apply S; [|discriminate|discriminate]. unfold shutdown_recs in E1. cbn [with_shutdown with_R R].
    pose proof (shutdown_all_evo same_kind kind_refl kind_trans kind_link kind_mod kind_tries kind_rr kind_ttl _ _ _ E1) as Q. exact Q.
  - apply on_recs_ok in E as (s & E1 & -> & ->). apply S; [|discriminate|discriminate]. apply SE. eapply (records_clear_evo same_kind kind_refl kind_trans kind_link). exact E1.
  - apply bind_ok in E as (q & E1 & E). injection E as <- <-. apply S'; [reflexivity|discriminate].
  - apply bind_ok in E as ([d1 n] & E1 & E). injection E as <- <-. destruct L as [N W].
    match type of E1 with mdnsd_in _ _ ?m ?from = _ => destruct (mdnsd_in_spec d e m from qs H C N W) as (d2 & n2 & qs2 & E2 & A & _) end.
    rewrite E2 in E1. injection E1 as <- <-. destruct (arrival_kind _ _ _ _ _ _ _ _ r Y H C N W A EY) as (X & EX & Q). left. exists X. split; [exact EX|]. split; [lia|discriminate].
  - apply bind_ok in E as ([[d1 m] n] & E1 & E). injection E as <- <-. assert (E2 : step d e OOut = Ok (d1, RMsg m n)) by (cbn [step]; rewrite E1; reflexivity).
    destruct C as (C1 & C2 & C3 & _). destruct (mdnsd_out_spec d e qs H C1 C2 C3 (proj2 L)) as (d2 & m2 & n2 & qs2 & E3 & O & _). rewrite E3 in E1. injection E1 as <- <- <-.
    destruct (outcome_kind _ _ _ _ _ _ _ r Y H O EY) as (X & EX & _ & Q). left. exists X. split; [exact EX|]. split; [exact Q|discriminate].
  - apply bind_ok in E as ([d1 t] & E1 & E). injection E as <- <-. destruct (mdnsd_sleep_spec d e qs H) as (d2 & t2 & qs2 & E2 & A & _). rewrite E2 in E1. injection E1 as <- <-.
    left. assert (Q : hframe (hp (R d)) (hp (R d2))) by (destruct A; try apply hframe_refl; assumption). specialize (Q r). rewrite EY in Q. destruct (hp (R d) r) as [X|]; [|discriminate]. exists X. split; [reflexivity|].
    cbn [option_map] in Q. injection Q as Q. split; [lia|discriminate].
  - injection E as <- <-. apply S'; [reflexivity|discriminate].
Qed.

Lemma history_reach : forall d0 l d, reach d0 -> history d0 l d -> reach d.
Proof. intros d0 l d K Hh. induction Hh as [|l d e o x d' Hh IH Lg E]; [exact K|]. eapply reach_step; eassumption. Qed.

Definition alike (X Y : mrec) : Prop := True.
Lemma alike_refl : forall X, alike X X. Proof. exact (fun _ => I). Qed.
Lemma alike_trans : forall X Y Z, alike X Y -> alike Y Z -> alike X Z. Proof. exact (fun _ _ _ _ _ => I). Qed.
Lemma alike_link : forall X p, alike X (set_link X p). Proof. exact (fun _ _ => I). Qed.
Lemma alike_mod : forall X b, alike X (set_modified X b). Proof. exact (fun _ _ => I). Qed.
Lemma alike_tries : forall X t, alike X (set_tries X t). Proof. exact (fun _ _ => I). Qed.
Lemma alike_done : forall s r s', r_done s r = Ok s' -> fresh s' = fresh s.
Proof. intros s r s' E. apply (proj2 (r_done_evo alike alike_refl _ _ _ E)). Qed.

Lemma set_head_fresh : forall s q p, fresh (set_head s q p) = fresh s.
Proof. intros s [] p; reflexivity. Qed.

Lemma r_out_fresh : forall fuel s t frm cls dsc q m seen ret s' m' seen' ret', r_out fuel s t frm cls dsc q m seen ret = Ok (s', m', seen', ret') -> fresh s' = fresh s.
Proof.
  induction fuel as [|fuel IH]; intros s t frm cls dsc q m seen ret s' m' seen' ret' E; [discriminate|]. cbn [r_out] in E. destruct (head s q) as [r|]; [|injection E as <- _ _ _; reflexivity].
  apply bind_ok in E as (X & EX & E). destruct (_ <? _); [|injection E as <- _ _ _; reflexivity]. cbv zeta in E. destruct (_ && _); [apply IH in E; rewrite E; apply set_head_fresh|].
  destruct (_ =? _).
  - apply bind_ok in E as (s1 & E1 & E). apply bind_ok in E as (s2 & E2 & E). apply IH in E. apply alike_done in E2. apply (r_remove_lists_evo alike alike_refl alike_trans alike_link) in E1 as [_ E1].
    rewrite E, E2, E1. cbn [set_hp fresh]. apply set_head_fresh.
  - apply IH in E. rewrite E. cbn [set_hp fresh]. apply set_head_fresh.
Qed.
Lemma pub_loop_fresh : forall fuel s t frm cls cur last m seen ret s' m' seen' ret', pub_loop fuel s t frm cls cur last m seen ret = Ok (s', m', seen', ret') -> fresh s' = fresh s.
Proof.
  induction fuel as [|fuel IH]; intros s t frm cls cur last m seen ret s' m' seen' ret' E; [discriminate|]. cbn [pub_loop] in E. destruct cur as [c|]; [|injection E as <- _ _ _; reflexivity].
  apply bind_ok in E as (X & EX & E). destruct (_ <? _) in E; [|injection E as <- _ _ _; reflexivity]. cbv zeta in E. destruct (_ && _) in E; [apply IH in E; exact E|].
  apply bind_ok in E as (s1 & E1 & E). apply bind_ok in E as (s2 & E2 & E). apply IH in E. rewrite E.
  assert (F2 : fresh s2 = fresh s1) by (destruct (_ =? _) in E2; [apply alike_done in E2; exact E2|injection E2 as <-; reflexivity]). rewrite F2.
  assert (F1 : forall s0, match last with None => Ok s0 | Some l => y <- hget (hp s0) l;; Ok (set_hp s0 (hset (hp s0) l (set_link y (link X)))) end = Ok s1 -> fresh s1 = fresh s0).
  { intros s0 Q. destruct last; [apply bind_ok in Q as (y & _ & Q)|]; injection Q as <-; reflexivity. }
  apply F1 in E1. rewrite E1. destruct (ptr_eqb _ _); [rewrite set_head_fresh|]; reflexivity.
Qed.
Lemma out_publish_fresh : forall s t frm cls m seen ret s' m' seen' ret', out_publish s t frm cls m seen ret = Ok (s', m', seen', ret') -> fresh s' = fresh s.
Proof.
  intros s t frm cls m seen ret s' m' seen' ret' E. unfold out_publish in E. destruct (probing s); [injection E as <- _ _ _; reflexivity|]. destruct (a_publish s); [|injection E as <- _ _ _; reflexivity].
  destruct (_ <=? _); [|injection E as <- _ _ _; reflexivity]. apply bind_ok in E as ([[[s1 m1] seen1] ret1] & E1 & E). injection E as <- _ _ _. apply pub_loop_fresh in E1. destruct (a_publish s1); exact E1.
Qed.
Lemma probe_ask_fresh : forall fuel s t cls r last m s' m', probe_ask fuel s t cls r last m = Ok (s', m') -> fresh s' = fresh s.
Proof.
  induction fuel as [|fuel IH]; intros s t cls r last m s' m' E; [discriminate|]. cbn [probe_ask] in E. destruct r as [c|]; [|injection E as <- _; reflexivity].
  apply bind_ok in E as (X & EX & E). destruct (_ =? _); [|apply IH in E; exact E]. cbv zeta in E. apply bind_ok in E as (s1 & E1 & E). apply bind_ok in E as (X1 & EX1 & E). apply bind_ok in E as (s2 & E2 & E).
  apply IH in E. apply (r_publish_evo alike alike_refl alike_trans alike_link alike_mod alike_tries) in E2 as [_ E2]. rewrite E, E2. cbn [set_hp fresh].
  destruct (ptr_eqb _ _); [injection E1 as <-; apply set_head_fresh|]. destruct last; [apply bind_ok in E1 as (y & _ & E1)|]; injection E1 as <-; reflexivity.
Qed.
Lemma probe_tell_fresh : forall fuel s t cls r m ret s' m' ret', probe_tell fuel s t cls r m ret = Ok (s', m', ret') -> fresh s' = fresh s.
Proof.
  induction fuel as [|fuel IH]; intros s t cls r m ret s' m' ret' E; [discriminate|]. cbn [probe_tell] in E. destruct r as [c|]; [|injection E as <- _ _; reflexivity].
  apply bind_ok in E as (X & EX & E). cbv zeta in E. apply IH in E. exact E.
Qed.
Lemma out_probe_fresh : forall s t cls m s' m' ret, out_probe s t cls m = Ok (s', m', ret) -> fresh s' = fresh s.
Proof.
  intros s t cls m s' m' ret E. unfold out_probe in E. destruct (probing s); [|injection E as <- _ _; reflexivity]. destruct (_ <=? _); [|injection E as <- _ _; reflexivity].
  apply bind_ok in E as ([s1 m1] & E1 & E). apply bind_ok in E as ([[s2 m2] r2] & E2 & E). injection E as <- _ _. apply probe_ask_fresh in E1. apply probe_tell_fresh in E2. destruct (_ =? _); cbn [set_tprobe fresh]; congruence.
Qed.
Lemma mdnsd_out_fresh : forall d e d' m n, mdnsd_out d e = Ok (d', m, n) -> fresh (R d') = fresh (R d).
Proof.
  intros d e d' m n E. unfold mdnsd_out in E. cbv zeta in E. change (uans (R (with_now d (e_now e)))) with (uans (R d)) in E. destruct (uans (R d)) as [|u us].
  - apply bind_ok in E as ([[[s1 m1] se1] r1] & E1 & E). apply bind_ok in E as ([[[s2 m2] se2] r2] & E2 & E). apply r_out_fresh in E1. apply out_publish_fresh in E2. change (R (with_now d (e_now e))) with (R d) in E1.
    destruct (is_shutdown _); [injection E as <- _ _; cbn [with_R R]; congruence|]. apply bind_ok in E as ([[[s3 m3] se3] r3] & E3 & E).
    assert (F3 : fresh s3 = fresh s2) by (destruct (a_pause s2); [destruct (_ <=? _) in E3; [apply r_out_fresh in E3; exact E3|]|]; injection E3 as <- _ _ _; reflexivity). clear E3.
    apply bind_ok in E as ([m4 se4] & _ & E). destruct (negb _); [injection E as <- _ _; cbn [with_R R]; congruence|]. apply bind_ok in E as ([[s4 m5] r5] & E5 & E). apply out_probe_fresh in E5.
    destruct (negb _); [injection E as <- _ _; cbn [with_R R]; congruence|]. apply bind_ok in E as ([[q m6] r6] & _ & E). destruct (_ <? _); [apply bind_ok in E as (q2 & _ & E)|]; injection E as <- _ _; cbn [with_expireall with_Q with_R R]; congruence.
  - apply bind_ok in E as ([s1 m1] & E1 & E). injection E as <- _ _. unfold out_unicast in E1. apply bind_ok in E1 as (X & _ & E1). cbv zeta in E1. apply bind_ok in E1 as ([m2 se2] & _ & E1). injection E1 as <- _. reflexivity.
Qed.

Lemma step_fresh : forall d e o d' x, reach d -> legal d e o -> step d e o = Ok (d', x) -> (fresh (R d) <= fresh (R d'))%nat /\ forall r, x = RRec r -> (r < fresh (R d'))%nat.
Proof.
  intros d e o d' x K L E. destruct (reach_dinv d K) as (qs & H & C).
  assert (Bd : bounded (R d)) by (intros y Z EZ; apply (qk_fresh _ _ (ri_q _ _ H)); congruence).
  assert (S : forall s, sevo same_kind (R d) s -> (fresh (R d) <= fresh s)%nat) by (intros s S; apply (S Bd)).
  assert (P : (fresh (R d) <= fresh (R d'))%nat -> (forall r, x <> RRec r) -> (fresh (R d) <= fresh (R d'))%nat /\ forall r, x = RRec r -> (r < fresh (R d'))%nat).
  { intros P Nx. split; [exact P|]. intros r Q. destruct (Nx r Q). }
  destruct o; cbn [step] in E.
  - apply on_new_ok in E as (s & r0 & E1 & -> & ->). match type of E1 with Ok ?p = Ok ?q => assert (E2 : p = q) by congruence end. clear E1. rename E2 into E1. destruct (mdnsd_shared_evo same_kind kind_refl kind_trans kind_link kind_mod kind_tries kind_rr kind_ttl _ _ _ _ _ _ E1) as (Q & -> & F). cbn [with_R R]. split; [lia|]. intros r [= <-]. lia.
  - apply on_new_ok in E as (s & r0 & E1 & -> & ->). destruct L as [_ L].
    match type of E1 with mdnsd_unique _ _ ?h ?ty ?ttl ?cb = _ => destruct (mdnsd_unique_inv (R d) qs (now d) h ty ttl cb H L) as (s1 & E2 & _ & F2 & _) end.
    rewrite E2 in E1. injection E1 as <- <-. cbn [with_R R]. split; [lia|]. intros r [= <-]. lia.
  - apply on_recs_ok in E as (s & E1 & -> & ->). apply P; [|discriminate]. cbn [with_R R]. erewrite (proj2 (mdnsd_set_evo same_kind kind_refl kind_trans kind_link kind_mod kind_tries kind_rr _ _ _ _ _ (keeps_raw _) E1)). apply le_n.
  - apply on_recs_ok in E as (s & E1 & -> & ->). apply P; [|discriminate]. cbn [with_R R]. erewrite (proj2 (mdnsd_set_evo same_kind kind_refl kind_trans kind_link kind_mod kind_tries kind_rr _ _ _ _ _ (keeps_host _) E1)). apply le_n.
  - apply on_recs_ok in E as (s & E1 & -> & ->). apply P; [|discriminate]. cbn [with_R R]. erewrite (proj2 (mdnsd_set_evo same_kind kind_refl kind_trans kind_link kind_mod kind_tries kind_rr _ _ _ _ _ (keeps_ip _) E1)). apply le_n.
  - apply on_recs_ok in E as (s & E1 & -> & ->). apply P; [|discriminate]. cbn [with_R R]. erewrite (proj2 (mdnsd_set_evo same_kind kind_refl kind_trans kind_link kind_mod kind_tries kind_rr _ _ _ _ _ (keeps_ip6 _) E1)). apply le_n.
  - apply on_recs_ok in E as (s & E1 & -> & ->). apply P; [|discriminate]. cbn [with_R R]. erewrite (proj2 (mdnsd_set_evo same_kind kind_refl kind_trans kind_link kind_mod kind_tries kind_rr _ _ _ _ _ (keeps_srv _ _ _ _) E1)). apply le_n.
  - apply on_recs_ok in E as (s & E1 & -> & ->). apply P; [|discriminate]. cbn [with_R R]. erewrite (proj2 (mdnsd_done_evo same_kind kind_refl kind_trans kind_link kind_ttl _ _ _ _ E1)). apply le_n.
  - apply on_recs_ok in E as (s & E1 & -> & ->). apply P; [|discriminate]. apply S. eapply (update_addresses_evo same_kind kind_refl kind_trans kind_link kind_mod kind_tries kind_rr kind_ttl). exact E1.
  - apply on_recs_ok in E as (s & E1 & -> & ->). apply P; [|discriminate]. apply S. eapply (update_addresses_evo same_kind kind_refl kind_trans kind_link kind_mod kind_tries kind_rr kind_ttl). exact E1.
  - apply on_recs_ok in E as (s & E1 & -> & ->). apply P; [|discriminate]. apply S. eapply (set_interface_addresses_evo same_kind kind_refl kind_trans kind_link kind_mod kind_tries kind_rr kind_ttl). exact E1.
  - destruct (bytes_eqb _ _); [injection E as <- <-; apply P; [apply le_n|discriminate]|]. apply bind_ok in E as (s & E1 & E). injection E as <- <-. apply P; [|discriminate]. cbn [with_addr with_R R]. apply S.
    eapply (set_all_evo same_kind kind_refl kind_trans kind_link kind_mod kind_tries kind_rr kind_ttl). exact E1.
  - destruct (bytes_eqb _ _); [injection E as <- <-; apply P; [apply le_n|discriminate]|]. apply bind_ok in E as (s & E1 & E). injection E as <- <-. apply P; [|discriminate]. cbn [with_addr with_R R]. apply S.
    eapply (set_all_evo same_kind kind_refl kind_trans kind_link kind_mod kind_tries kind_rr kind_ttl). exact E1.
  - injection E as <- <-. apply P; [apply le_n|discriminate].
  - injection E as <- <-. apply P; [apply le_n|discriminate].
  - apply bind_ok in E as (s & E1 & E). injection E as <- <-. apply P; [|discriminate]. unfold shutdown_recs in E1. cbn [with_shutdown with_R R].
    pose proof (shutdown_all_evo same_kind kind_refl kind_trans kind_link kind_mod kind_tries kind_rr kind_ttl _ _ _ E1) as Q. apply (S s Q).
  - apply on_recs_ok in E as (s & E1 & -> & ->). apply P; [|discriminate]. cbn [with_R R]. rewrite (proj2 (records_clear_evo same_kind kind_refl kind_trans kind_link _ _ E1)). apply le_n.
  - apply bind_ok in E as (q & E1 & E). injection E as <- <-. apply P; [apply le_n|discriminate].
  - apply bind_ok in E as ([d1 n] & E1 & E). injection E as <- <-. apply P; [|discriminate]. destruct L as [N W].
    match type of E1 with mdnsd_in _ _ ?m ?from = _ => destruct (mdnsd_in_spec d e m from qs H C N W) as (d2 & n2 & qs2 & E2 & A & _) end.
    rewrite E2 in E1. injection E1 as <- <-. destruct C as (C1 & _). destruct A as [?|i tm|i0 tm0 d' qs' ? ? ? ? E|i0 tm0 d' qs' ? ? ? ? E]; [apply le_n|apply le_n| |].
    + match type of E with questions ?d1 ?ee ?from _ ?id ?qd ?an = _ => destruct (questions_sound qd d1 ee from false id an qs H ltac:(discriminate)) as (s' & i' & tm' & L' & b & qs3 & Cf & E' & _ & _ & F & _) end.
      rewrite E' in E. injection E as <-. change (fresh (R d) <= fresh s')%nat. change (fresh s' = fresh (R d)) in F. lia.
    + match type of E with responses ?d1 ?ee ?from _ ?an = _ => destruct (responses_sound an d1 ee from false qs H C1 N W ltac:(discriminate)) as (s' & q' & i' & tm' & L' & qs3 & T & Cf & E' & _ & _ & _ & _ & _ & F & _) end.
      rewrite E' in E. injection E as <-. change (fresh (R d) <= fresh s')%nat. change (fresh s' = fresh (R d)) in F. lia.
  - apply bind_ok in E as ([[d1 m] n] & E1 & E). injection E as <- <-. apply P; [|discriminate]. apply mdnsd_out_fresh in E1. lia.
  - apply bind_ok in E as ([d1 t] & E1 & E). injection E as <- <-. apply P; [|discriminate]. destruct (mdnsd_sleep_spec d e qs H) as (d2 & t2 & qs2 & E2 & A & _). rewrite E2 in E1. injection E1 as <- <-. destruct A; try apply le_n.
    cbn [with_R R with_now]. match goal with F : fresh _ = fresh _ |- _ => rewrite F end. apply le_n.
  - injection E as <- <-. apply P; [apply le_n|discriminate].
Qed.

Lemma made_unique_snoc : forall l d e o x d' r, made_unique (l ++ [mkevent d e o x d']) r <-> made_unique l r \/ ((exists h ty ttl cb, o = OUnique h ty ttl cb) /\ x = RRec r).
Proof.
  intros l d e o x d' r. unfold made_unique. split.
  - intros (ev & h & ty & ttl & cb & I & A & B). apply in_app_iff in I as [I|[<-|[]]]; [left; eauto 10|]. right. cbn [ev_call ev_result] in *. eauto 6.
  - intros [(ev & h & ty & ttl & cb & I & A & B)|((h & ty & ttl & cb & A) & B)].
    + exists ev, h, ty, ttl, cb. split; [apply in_app_iff; left; exact I|]. auto.
    + exists (mkevent d e o x d'), h, ty, ttl, cb. split; [apply in_app_iff; right; left; reflexivity|]. auto.
Qed.

Lemma history_unique : forall d0 l d, reach d0 -> (forall r, hp (R d0) r = None) -> history d0 l d ->
  (forall r X, record d r X -> (unique X <> 0 <-> made_unique l r)) /\ (forall r, made_unique l r -> (r < fresh (R d))%nat).
Proof.
  intros d0 l d K0 Z Hh. induction Hh as [|l d e o x d' Hh [IH1 IH2] Lg E].
  - split; [intros r X EX; unfold record in EX; rewrite Z in EX; discriminate|]. intros r (ev & h & ty & ttl & cb & [] & _).
  - pose proof (history_reach d0 l d K0 Hh) as K. destruct (step_fresh d e o d' x K Lg E) as [F1 F2]. split.
    + intros r Y EY. rewrite made_unique_snoc. destruct (step_kind d e o d' x r Y K Lg E EY) as [(X & EX & U & Nx)|(D & U)].
      * rewrite <- (IH1 r X EX). assert (Q : unique Y <> 0 <-> unique X <> 0) by lia. tauto.
      * assert (Q : ~ made_unique l r) by (intros M; apply IH2 in M; lia). tauto.
    + intros r M. apply made_unique_snoc in M as [M|[_ M]]; [apply IH2 in M; lia|apply F2; exact M].
Qed.

(* ------------------------------------------------------------------ *)
(* C29, C37 *)

Lemma filter_all : forall (A B : Type) (f : B -> bool) (g : A -> B) l, (forall x, f (g x) = true) -> filter f (map g l) = map g l.
Proof. intros A B f g l K. induction l as [|x l IH]; [reflexivity|]. cbn [map filter]. rewrite K, IH. reflexivity. Qed.
Lemma filter_none : forall (A B : Type) (f : B -> bool) (g : A -> B) l, (forall x, f (g x) = false) -> filter f (map g l) = [].
Proof. intros A B f g l K. induction l as [|x l IH]; [reflexivity|]. cbn [map filter]. rewrite K. exact IH. Qed.

Lemma verified_only : forall d e d' m n, reach d -> legal d e OOut -> uans (R d) = [] -> step d e OOut = Ok (d', RMsg m n) -> o_qr m = true ->
  exists L, answers_of m = map (as_answer (class d)) L /\ NoDup (map fst L) /\ forall r X, In (r, X) L -> record d r X /\ ~ waits d Probing r /\ ~ in_probing X.
Proof.
  intros d e d' m n K L U E Qr. destruct (response_lists d e d' m n K L U E Qr) as (La & Lx & Ei & _ & Nd & M & _). exists La. split; [|split; [exact Nd|]].
  - unfold answers_of. rewrite Ei, filter_app, filter_all, filter_none, app_nil_r; [reflexivity| |]; intros p; reflexivity.
  - intros r X I. destruct (M r X I) as (M1 & (k & Nk & Wk) & M2). split; [exact M1|]. destruct (reach_dinv d K) as (qs & H & _). split; [|unfold in_probing; lia].
    intros W. apply Nk. apply (qk_disj _ _ (ri_q _ _ H) k Probing r); apply (waits_iff d qs _ r H); assumption.
Qed.

Lemma flushes : forall t cls frm l d e d' m n, 0 <= fst t -> history (mdnsd_new t cls frm) l d -> legal d e OOut -> uans (R d) = [] -> step d e OOut = Ok (d', RMsg m n) -> o_qr m = true ->
  exists L, Forall2 (fun i p => record d (fst p) (snd p) /\ exists sec, (made_unique l (fst p) -> i = shown sec (class d + 32768) (snd p)) /\ (~ made_unique l (fst p) -> i = shown sec (class d) (snd p))) (items (o_calls m)) L.
Proof.
  intros t cls frm l d e d' m n T Hh L U E Qr. pose proof (reach_new t cls frm T) as K0. pose proof (history_reach _ _ _ K0 Hh) as K. destruct (history_unique _ _ _ K0 (fun r => eq_refl) Hh) as [Hu _].
  destruct (response_lists d e d' m n K L U E Qr) as (La & Lx & Ei & _ & _ & Ma & Mx & _).
  set (back := fun p : nat * mrec => (fst p, match hp (R d) (fst p) with Some X => X | None => snd p end)). exists (La ++ map back Lx). rewrite Ei.
  assert (Fl : forall r X, record d r X -> (made_unique l r -> flushing (class d) X = class d + 32768) /\ (~ made_unique l r -> flushing (class d) X = class d)).
  { intros r X EX. specialize (Hu r X EX). unfold flushing. destruct (unique X =? 0) eqn:D; split; intros M; try reflexivity; exfalso; [apply Hu in M; lia|apply M; apply Hu; lia]. }
  apply Forall2_app.
  - clear - Ma Fl. induction La as [|[r X] La IH]; [constructor|]. cbn [map]. constructor.
    + cbn [fst snd]. destruct (Ma r X (or_introl eq_refl)) as [M _]. split; [exact M|]. exists SAn. destruct (Fl r X M) as [F1 F2]. unfold as_answer. cbn [snd]. split; intros Q; [rewrite F1|rewrite F2]; auto.
    + apply IH. intros r' X' I. apply Ma. right. exact I.
  - clear - Mx Fl. induction Lx as [|[r X] Lx IH]; [constructor|]. cbn [map]. constructor.
    + cbn [back fst snd]. destruct (Mx r X (or_introl eq_refl)) as (_ & (X0 & E0 & R0 & U0) & _). unfold record in E0. rewrite E0. split; [exact E0|]. exists SAr. destruct (Fl r X0 E0) as [F1 F2].
      assert (Fx : flushing (class d) X = flushing (class d) X0) by (unfold flushing; rewrite U0; reflexivity). unfold as_extra. cbn [snd]. rewrite Fx. unfold shown. rewrite R0. split; intros Q; [rewrite F1|rewrite F2]; auto.
    + apply IH. intros r' X' I. apply Mx. right. exact I.
Qed.

Lemma flushes_not : forall d e d' m n i, reach d -> legal d e OOut -> step d e OOut = Ok (d', RMsg m n) -> o_qr m = false \/ uans (R d) <> [] -> says m i -> (section_of i <= 2)%nat -> class_of i = class d.
Proof.
  intros d e d' m n i K L E Qr I Se. unfold says in I. destruct (uans (R d)) as [|u us] eqn:U.
  - destruct Qr as [Qr|Qr]; [|congruence]. destruct (asking_items d e d' m n K L E Qr) as (_ & a & b & Ei & Fa & Fb). rewrite Ei in I. rewrite Forall_forall in Fa. apply in_app_iff in I as [I|I]; [apply Fa; exact I|].
    destruct Fb as [Fb|Fb]; rewrite Forall_forall in Fb; apply Fb; exact I.
  - destruct (unicast_lists d e d' m n u us K L U E) as (X & Lx & EX & _ & Ei & _). rewrite Ei in I. destruct I as [<-|[<-|I]]; [reflexivity|reflexivity|]. apply in_map_iff in I as (p & <- & _). exfalso. unfold as_extra in Se. cbn [section_of shown] in Se. lia.
Qed.

Lemma additional_relevant : forall d e d' m n, reach d -> legal d e OOut -> uans (R d) = [] -> step d e OOut = Ok (d', RMsg m n) -> o_qr m = true ->
  exists L E, items (o_calls m) = map (as_answer (class d)) L ++ map (as_extra (class d)) E /\
    (forall r X, In (r, X) L -> record d r X) /\ (forall r X, In (r, X) E -> record d' r X /\ published d' r /\ exists a A, In (a, A) L /\ goes_with d' A X) /\
    ((length L + length E <= 64)%nat -> NoDup (map fst (L ++ E))).
Proof.
  intros d e d' m n K L U E Qr. destruct (response_lists d e d' m n K L U E Qr) as (La & Lx & Ei & _ & _ & Ma & Mx & Nd). exists La, Lx. split; [exact Ei|]. split; [intros r X I; apply (Ma r X I)|]. split; [|exact Nd].
  intros r X I. destruct (Mx r X I) as (M1 & _ & M2). split; [exact M1|]. split; [|exact M2]. assert (K' : reach d') by (eapply reach_step; eassumption).
  apply (published_live d' K'). eauto.
Qed.
Lemma unicast_relevant : forall d e d' m n u us, reach d -> legal d e OOut -> uans (R d) = u :: us -> step d e OOut = Ok (d', RMsg m n) ->
  exists X E, record d (u_r u) X /\ items (o_calls m) = IQuestion (a_name (rr X)) (a_type (rr X)) (class d) :: shown SAn (class d) X :: map (as_extra (class d)) E /\
    (forall r Y, In (r, Y) E -> record d r Y /\ published d r /\ goes_with d X Y) /\ ((length E < 64)%nat -> NoDup (u_r u :: map fst E)).
Proof.
  intros d e d' m n u us K L U E. destruct (unicast_lists d e d' m n u us K L U E) as (X & Lx & EX & _ & Ei & M & Nd). exists X, Lx. split; [exact EX|]. split; [exact Ei|]. split; [|exact Nd].
  intros r Y I. destruct (M r Y I) as [M1 M2]. split; [exact M1|]. split; [|exact M2]. apply (published_live d K). eauto.
Qed.

Lemma response_size : forall d e d' m n, uans (R d) = [] -> sized_addresses d -> step d e OOut = Ok (d', RMsg m n) -> o_qr m = true -> packet_len (encode (o_calls m)) <= Z.max 12 (frame d + 261).
Proof.
  intros d e d' m n U Sz E Qr. cbn [step] in E. apply bind_ok in E as ([[d1 m1] n1] & E1 & E). injection E as <- <- <-. eapply response_within; [|exact U|exact E1|exact Qr]. intros x X EX. apply Sz in EX. exact EX.
Qed.
Lemma response_fits : forall d e d' m n, uans (R d) = [] -> sized_addresses d -> frame d + 261 <= MAX_PACKET_LEN -> step d e OOut = Ok (d', RMsg m n) -> o_qr m = true -> e_ovf (encode (o_calls m)) = false.
Proof. intros d e d' m n U Sz B E Qr. apply no_overflow. pose proof (response_size d e d' m n U Sz E Qr) as K. unfold mlen. change MAX_PACKET_LEN with 65535 in *. lia. Qed.
