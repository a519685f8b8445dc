(* Registering queries and asking them. *)
From Verif Require Import Base Lemmas Hash HashProofs XhtProofs Wire Rec Qry Out In Api RecInv RecSafe RecOps OutSafe QryInv QryOps CacheOps.

(* The same record, whoever asked for it *)
Definition csame (c c' : cached) : Prop := c_id c' = c_id c /\ c_rr c' = c_rr c.

Lemma crel_csame : forall l l', Forall2 crel l l' -> Forall2 csame l l'.
Proof. intros l l' F. induction F as [|x y l l' (A & B & _) F IH]; constructor; [split; assumption|exact IH]. Qed.

(* Changing a query's timing or callback *)
Lemma qset_inv : forall s q x y, qinv s -> qh s q = Some x -> q_nm y = q_nm x -> q_ty y = q_ty x -> qinv (qset s q y).
Proof.
  intros s q x y [F L N T1 T2 T3 T4 O C1 C2 C3 C4 C5 C6] Ex En Et.
  assert (G : forall p z, qh (qset s q y) p = Some z -> exists z', qh s p = Some z' /\ q_nm z = q_nm z' /\ q_ty z = q_ty z').
  { intros p z. cbn [qset qh set_qh]. destruct (Nat.eqb_spec p q) as [->|D]; intros K; [injection K as <-; eauto|eauto]. }
  assert (G0 : forall p, qh (qset s q y) p <> None <-> qh s p <> None).
  { intros p. cbn [qset qh set_qh]. destruct (Nat.eqb_spec p q) as [->|D]; [|tauto]. rewrite Ex. split; congruence. }
  split; try assumption.
  - intros p K. apply G0 in K. exact (F p K).
  - intros p. rewrite G0. apply L.
  - intros i p z I K. destruct (G p z K) as (z' & E' & En' & _). rewrite En'. exact (T4 i p z' I E').
  - intros a b z w Ez Ew K1 K2. destruct (G a z Ez) as (z' & E1 & A1 & A2). destruct (G b w Ew) as (w' & E2 & B1 & B2). apply (O a b z' w' E1 E2); congruence.
  - intros i c p I Ep. destruct (C5 i c p I Ep) as (z & Ez & Mz). cbn [qset qh set_qh]. destruct (Nat.eqb_spec p q) as [->|D]; [|eauto].
    exists y. split; [reflexivity|]. rewrite En, Et. replace x with z by congruence. exact Mz.
Qed.

Lemma set_checkq_inv : forall s t, qinv s -> qinv (set_checkq s t).
Proof. intros s t []. split; assumption. Qed.

(* Linking a new query *)
Definition link_query (s : qrys) (x : query) : qrys :=
  mkqrys (fun j => if Nat.eqb j (qfresh s) then Some x else qh s j) (S (qfresh s))
         (qfresh s :: qlist s) (upd (qtab s) (qbucket (q_nm x)) (qfresh s :: nth (qbucket (q_nm x)) (qtab s) []))
         (upd (cache s) (cbucket (q_nm x)) (map (fun c => if c_match (q_nm x) (q_ty x) c then set_cq c (Some (qfresh s)) else c) (centries s (cbucket (q_nm x)))))
         (cfresh s) (checkq s) (ncb s) (told s).

Lemma qbucket_nth_notin : forall s i, qinv s -> ~ In (qfresh s) (nth i (qtab s) []).
Proof.
  intros s i H I. assert (K : In (qfresh s) (concat (qtab s))) by (apply in_concat_nth; exists i; exact I).
  apply (qi_tab _ H), (qi_live _ H), (qi_fresh _ H) in K. lia.
Qed.

Lemma link_query_inv : forall s x, qinv s -> (forall q y, qh s q = Some y -> ~ (q_nm y = q_nm x /\ q_ty y = q_ty x)) ->
  qinv (link_query s x) /\
  (forall i, Forall2 csame (centries s i) (centries (link_query s x) i)).
Proof.
  intros s x H U. pose proof H as [F L N T1 T2 T3 T4 O C1 C2 C3 C4 C5 C6].
  set (s' := link_query s x). set (q := qfresh s) in *.
  assert (Nq : ~ In q (qlist s)) by (intros K; apply L in K; apply F in K; unfold q in K; lia).
  assert (Lb : (qbucket (q_nm x) < length (qtab s))%nat) by (rewrite T1; apply qbucket_lt).
  assert (Ei : centries s' (cbucket (q_nm x)) = map (fun c => if c_match (q_nm x) (q_ty x) c then set_cq c (Some q) else c) (centries s (cbucket (q_nm x)))).
  { unfold centries at 1. cbn [s' link_query cache]. apply nth_upd_same. rewrite C1. apply cbucket_lt. }
  assert (Eo : forall j, j <> cbucket (q_nm x) -> centries s' j = centries s j).
  { intros j D. unfold centries at 1. cbn [s' link_query cache]. apply nth_upd_other. congruence. }
  assert (CS : forall i, Forall2 (fun c c' => csame c c' /\ (c_q c' = c_q c \/ (c_q c' = Some q /\ c_match (q_nm x) (q_ty x) c = true))) (centries s i) (centries s' i)).
  { intros i. destruct (Nat.eq_dec i (cbucket (q_nm x))) as [->|D].
    - rewrite Ei. apply Forall2_map_r. intros c _. destruct (c_match (q_nm x) (q_ty x) c) eqn:M; repeat split; auto.
    - rewrite Eo by exact D. apply Forall2_refl'. intros c. repeat split. auto. }
  assert (I : forall i c', In c' (centries s' i) -> exists c, In c (centries s i) /\ csame c c' /\ (c_q c' = c_q c \/ (c_q c' = Some q /\ c_match (q_nm x) (q_ty x) c = true))).
  { intros i c' Ic. destruct (Forall2_in_r _ _ _ _ _ _ (CS i) Ic) as (c & Ic' & P). eauto. }
  assert (CS2 : forall i, Forall2 csame (centries s i) (centries s' i)).
  { intros i. specialize (CS i). clear - CS. induction CS as [|? ? ? ? (K & _) ? IH]; constructor; assumption. }
  split; [|exact CS2].
  split; cbn [s' link_query qh qfresh qlist qtab cfresh].
  - intros p. destruct (Nat.eqb_spec p (qfresh s)) as [->|D]; [lia|]. intros K. apply F in K. lia.
  - intros p. fold q. destruct (Nat.eqb_spec p q) as [->|D]; [split; [left; reflexivity|congruence]|]. rewrite L. cbn [In]. intuition congruence.
  - constructor; assumption.
  - rewrite upd_length. exact T1.
  - intros p. rewrite in_upd by exact Lb. fold q. cbn [In]. rewrite <- T2, in_concat_nth. split.
    + intros [[A|A]|(j & D & A)]; [left; exact A|right; eauto|right; eauto].
    + intros [A|(j & A)]; [left; left; exact A|]. destruct (Nat.eq_dec j (qbucket (q_nm x))) as [->|D]; [left; right; exact A|right; eauto].
  - apply nodup_concat_add; [exact T3|exact Lb|]. intros K. apply T2 in K. exact (Nq K).
  - intros i p y Ip Ey. fold q in Ey, Ip. destruct (Nat.eqb_spec p q) as [->|D].
    + injection Ey as <-. destruct (Nat.eq_dec i (qbucket (q_nm x))) as [->|Di]; [reflexivity|]. rewrite nth_upd_other in Ip by congruence. destruct (qbucket_nth_notin s i H Ip).
    + apply (T4 i p y); [|exact Ey]. destruct (Nat.eq_dec i (qbucket (q_nm x))) as [->|Di].
      * rewrite nth_upd_same in Ip by exact Lb. destruct Ip as [K|Ip]; [congruence|exact Ip].
      * rewrite nth_upd_other in Ip by congruence. exact Ip.
  - fold q. intros a b y z. destruct (Nat.eqb_spec a q) as [->|Da], (Nat.eqb_spec b q) as [->|Db]; intros Ey Ez K1 K2.
    + reflexivity.
    + injection Ey as <-. destruct (U b z Ez). split; congruence.
    + injection Ez as <-. destruct (U a y Ey). split; congruence.
    + exact (O a b y z Ey Ez K1 K2).
  - unfold s', link_query; cbn [cache]. rewrite upd_length. exact C1.
  - intros i c' Ic. destruct (I i c' Ic) as (c & Jc & (_ & K) & _). rewrite K. apply C2. exact Jc.
  - intros i. rewrite (Forall2_map_same _ _ c_id csame (centries s i) (centries s' i)); [apply C3|intros y z K; apply K|apply CS2].
  - intros i c' Ic. destruct (I i c' Ic) as (c & Jc & (K & _) & _). rewrite K. eapply C4. exact Jc.
  - intros i c' p Ic Ep. destruct (I i c' Ic) as (c & Jc & (_ & Kr) & K). fold q. destruct K as [K|[K M]].
    + rewrite K in Ep. destruct (C5 i c p Jc Ep) as (y & Ey & My). exists y. assert (D : p <> q) by (intros ->; assert (A : qh s q <> None) by congruence; apply F in A; unfold q in A; lia).
      apply Nat.eqb_neq in D. rewrite D. split; [exact Ey|]. unfold c_match in *. rewrite Kr. exact My.
    + rewrite Ep in K. injection K as ->. exists x. rewrite Nat.eqb_refl. split; [reflexivity|]. unfold c_match in *. rewrite Kr. exact M.
  - intros i. rewrite (Forall2_map_same _ _ (fun c => akey (c_rr c)) csame (centries s i) (centries s' i)); [apply C6| |exact (CS2 i)].
    intros y z [_ K]. rewrite K. reflexivity.
Qed.

(* mdnsd_query *)
Definition query_effect (s s' : qrys) (now : Z) (host : list Z) (type : Z) (answer : option nat) (o : option nat) : Prop :=
  match o, answer with
  | None, None => s' = s
  | Some q, None => qh s' q = None /\ (forall p, p <> q -> qh s' p = qh s p) /\ qlist s' = remove1 q (qlist s) /\ checkq s' = checkq s
  | Some q, Some cb => exists x, qh s q = Some x /\ qh s' q = Some (set_qcb x cb) /\ (forall p, p <> q -> qh s' p = qh s p) /\ qlist s' = qlist s /\ checkq s' = checkq s
  | None, Some cb =>
      qh s' (qfresh s) = Some (mkquery host type now 0 cb) /\ (forall p, p <> qfresh s -> qh s' p = qh s p) /\ qlist s' = qfresh s :: qlist s /\ checkq s' = now
  end.

Lemma mdnsd_query_spec : forall s now host type answer, qinv s ->
  exists s' o, mdnsd_query s now host type answer = Ok s' /\ qinv s' /\ query_for s host type o /\
    query_effect s s' now host type answer o /\ (forall i, Forall2 csame (centries s i) (centries s' i)) /\ ncb s' = ncb s /\ told s' = told s /\ cfresh s' = cfresh s /\ (qfresh s <= qfresh s')%nat.
Proof.
  intros s now host type answer H. unfold mdnsd_query. destruct (q_find_spec s host type H) as (o & Eo & So). rewrite Eo. cbn [bind].
  assert (CR : forall i, Forall2 csame (centries s i) (centries s i)) by (intros i; apply Forall2_refl'; split; reflexivity).
  destruct o as [q|].
  - pose proof So as (x & Ex & Nx & Yx). destruct answer as [cb|].
    + rewrite (qget_some _ _ _ Ex). cbn [bind]. exists (qset s q (set_qcb x cb)), (Some q). split; [reflexivity|]. split; [eapply qset_inv; eauto|].
      split; [exact So|]. split; [|split; [exact CR|repeat split; apply le_n]]. exists x. cbn [qset qh set_qh qlist checkq]. rewrite Nat.eqb_refl. repeat split; auto.
      intros p D. apply Nat.eqb_neq in D. rewrite D. reflexivity.
    + destruct (q_done_spec s q x H Ex) as (s' & E' & H' & A1 & A2 & A3 & A4 & A5 & A6 & A7 & A8 & A9). exists s', (Some q). split; [exact E'|]. split; [exact H'|].
      split; [exact So|]. split; [repeat split; assumption|]. split; [intros i; apply crel_csame; apply A4|]. repeat split; try assumption. lia.
  - destruct answer as [cb|].
    + cbv zeta. set (q := qfresh s). set (x := mkquery host type 0 0 cb).
      match goal with |- context [q_reset ?z q] => change z with (link_query s x) end.
      destruct (link_query_inv s x H So) as [H1 CS]. set (s1 := link_query s x) in *.
      assert (E1 : qh s1 q = Some x) by (cbn [s1 link_query qh]; rewrite Nat.eqb_refl; reflexivity).
      unfold q_reset. rewrite (qget_some _ _ _ E1). cbn [bind]. cbv zeta. set (t := reset_try _ _ _).
      set (s2 := qset s1 q (set_qnext x t 0)).
      assert (H2 : qinv s2) by (eapply qset_inv; [exact H1|exact E1|reflexivity|reflexivity]).
      set (s3 := if negb (t =? 0) && (t <? checkq s2) then set_checkq s2 t else s2).
      assert (H3 : qinv s3) by (unfold s3; destruct (_ && _); [apply set_checkq_inv|]; exact H2).
      assert (Q3 : qh s3 = qh s2) by (unfold s3; destruct (_ && _); reflexivity).
      assert (E3 : qh s3 q = Some (set_qnext x t 0)) by (rewrite Q3; cbn [s2 qset qh set_qh]; rewrite Nat.eqb_refl; reflexivity).
      rewrite (qget_some _ _ _ E3). cbn [bind]. eexists. exists None. split; [reflexivity|].
      split; [apply set_checkq_inv; eapply qset_inv; [exact H3|exact E3|reflexivity|reflexivity]|]. split; [exact So|].
      assert (F3 : qlist s3 = q :: qlist s /\ ncb s3 = ncb s /\ told s3 = told s /\ cfresh s3 = cfresh s /\ qfresh s3 = S q /\ cache s3 = cache s1).
      { unfold s3; destruct (_ && _); repeat split. }
      destruct F3 as (G1 & G2 & G3 & G4 & G5 & G6).
      split; [|split; [|split; [exact G2|split; [exact G3|split; [exact G4|]]]]].
      * cbn [query_effect qset set_qh set_checkq qh qlist checkq]. fold q. rewrite Nat.eqb_refl. split; [reflexivity|]. split; [|split; [exact G1|reflexivity]].
        intros p D. apply Nat.eqb_neq in D. rewrite D, Q3. cbn [s2 s1 link_query qset qh set_qh]. fold q. rewrite D. reflexivity.
      * intros i. unfold centries. cbn [qset set_qh set_checkq cache]. rewrite G6. apply CS.
      * cbn [qset set_qh set_checkq qfresh]. rewrite G5. unfold q. lia.
    + exists s, None. split; [reflexivity|]. split; [exact H|]. split; [exact So|]. split; [reflexivity|]. split; [exact CR|]. repeat split; lia.
Qed.
