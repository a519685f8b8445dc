(* The invariant of the registered queries and the cache. *)
From Verif Require Import Base Lemmas Hash HashProofs XhtProofs Wire Rec Qry RecInv RecSafe RecOps OutSafe.

(* ------------------------------------------------------------------ *)
(* Data of an answer, the part _a_match compares *)

Definition adata (a : answer) : list Z * option (list Z) * (Z * Z * Z) :=
  if a_type a =? QTYPE_SRV then ([], a_rdname a, (a_prio a, a_weight a, a_port a))
  else if is_name_type (a_type a) then ([], a_rdname a, (0, 0, 0))
  else if a_type a =? QTYPE_A then (a_ip a, None, (0, 0, 0))
  else if a_type a =? QTYPE_AAAA then (a_ip6 a, None, (0, 0, 0))
  else (opt_bytes (a_rdata a), None, (0, 0, 0)).
(* Name, type and data *)
Definition akey (a : answer) := (a_name a, a_type a, adata a).

Record qinv (s : qrys) : Prop := mkqinv {
  qi_fresh : forall q, qh s q <> None -> (q < qfresh s)%nat;
  qi_live : forall q, qh s q <> None <-> In q (qlist s);
  qi_nodup : NoDup (qlist s);
  qi_tlen : length (qtab s) = Z.to_nat SPRIME;
  qi_tab : forall q, In q (concat (qtab s)) <-> In q (qlist s);
  qi_tnodup : NoDup (concat (qtab s));
  qi_bucket : forall i q x, In q (nth i (qtab s) []) -> qh s q = Some x -> qbucket (q_nm x) = i;
  qi_one : forall p q x y, qh s p = Some x -> qh s q = Some y -> q_nm x = q_nm y -> q_ty x = q_ty y -> p = q;
  qi_clen : length (cache s) = Z.to_nat LPRIME;
  qi_cbucket : forall i c, In c (centries s i) -> cbucket (a_name (c_rr c)) = i;
  qi_cid : forall i, NoDup (map c_id (centries s i));
  qi_cfresh : forall i c, In c (centries s i) -> (c_id c < cfresh s)%nat;
  qi_cq : forall i c q, In c (centries s i) -> c_q c = Some q -> exists x, qh s q = Some x /\ c_match (q_nm x) (q_ty x) c = true;
  qi_dup : forall i, NoDup (map (fun c => akey (c_rr c)) (centries s i))
}.

Lemma qbucket_lt : forall n, (qbucket n < Z.to_nat SPRIME)%nat.
Proof. exact rbucket_lt. Qed.
Lemma cbucket_lt : forall n, (cbucket n < Z.to_nat LPRIME)%nat.
Proof. intros n. unfold cbucket. pose proof (bucket_index_range n LPRIME ltac:(reflexivity)) as K. lia. Qed.

Lemma qget_some : forall s q x, qh s q = Some x -> qget s q = Ok x.
Proof. intros s q x E. unfold qget. rewrite E. reflexivity. Qed.

Lemma new_qinv : qinv qrys_new.
Proof.
  assert (N : forall (A : Type) n i, nth i (repeat (@nil A) n) [] = []).
  { intros A n i. destruct (le_lt_dec n i) as [L|L]; [apply nth_overflow; rewrite repeat_length; lia|]. apply nth_repeat. }
  assert (C : forall (A : Type) n, concat (repeat (@nil A) n) = []) by (intros A n; induction n; [reflexivity|exact IHn]).
  assert (CN : forall i, centries qrys_new i = []) by (intros i; apply N).
  split.
  - intros q K. cbn in K. congruence.
  - intros q. cbn. split; [congruence|intros []].
  - constructor.
  - apply repeat_length.
  - intros q. cbn [qtab qlist qrys_new]. rewrite C. reflexivity.
  - cbn [qtab qrys_new]. rewrite C. constructor.
  - intros i q x I. cbn [qtab qrys_new] in I. rewrite N in I. contradiction.
  - intros a b x y K. discriminate.
  - apply repeat_length.
  - intros i c I. rewrite CN in I. contradiction.
  - intros i. rewrite CN. constructor.
  - intros i c I. rewrite CN in I. contradiction.
  - intros i c q I. rewrite CN in I. contradiction.
  - intros i. rewrite CN. constructor.
Qed.

Lemma nodup_concat_nth : forall (A : Type) (l : list (list A)) i, NoDup (concat l) -> NoDup (nth i l []).
Proof.
  intros A l. induction l as [|b l IH]; intros [|i] C; cbn [nth]; try constructor; cbn [concat] in C; apply nodup_app in C; [apply C|].
  apply IH. apply C.
Qed.

(* Entries that agree but for the TTL and a cleared query *)
Definition ckeep (c c' : cached) : Prop :=
  c_id c' = c_id c /\ akey (c_rr c') = akey (c_rr c) /\ (c_q c' = c_q c \/ c_q c' = None).
(* ... and with the same TTL *)
Definition crel (c c' : cached) : Prop :=
  c_id c' = c_id c /\ c_rr c' = c_rr c /\ (c_q c' = c_q c \/ c_q c' = None).

Lemma crel_refl : forall c, crel c c.
Proof. intros c. repeat split. left. reflexivity. Qed.
Lemma crel_trans : forall a b c, crel a b -> crel b c -> crel a c.
Proof. intros a b c (A1 & A2 & A3) (B1 & B2 & B3). split; [congruence|]. split; [congruence|]. destruct B3 as [B3|B3]; rewrite B3; [exact A3|right; reflexivity]. Qed.
Lemma crel_keep : forall c c', crel c c' -> ckeep c c'.
Proof. intros c c' (A & B & C). split; [exact A|]. split; [rewrite B; reflexivity|exact C]. Qed.

Lemma Forall2_refl' : forall (A : Type) (P : A -> A -> Prop) l, (forall x, P x x) -> Forall2 P l l.
Proof. intros A P l H. induction l; constructor; auto. Qed.
Lemma Forall2_trans' : forall (A : Type) (P : A -> A -> Prop), (forall x y z, P x y -> P y z -> P x z) -> forall a b c, Forall2 P a b -> Forall2 P b c -> Forall2 P a c.
Proof. intros A P T a b c H. revert c. induction H as [|x y a b XY AB IH]; intros c BC; inversion BC; subst; constructor; eauto. Qed.
Lemma Forall2_in_r : forall (A B : Type) (P : A -> B -> Prop) l l' y, Forall2 P l l' -> In y l' -> exists x, In x l /\ P x y.
Proof.
  intros A B P l l' y H. induction H as [|x z l l' XZ H IH]; intros I; [contradiction|]. destruct I as [->|I].
  - exists x. split; [left; reflexivity|exact XZ].
  - destruct (IH I) as (w & I' & P'). exists w. split; [right; exact I'|exact P'].
Qed.
Lemma Forall2_in_l : forall (A B : Type) (P : A -> B -> Prop) l l' x, Forall2 P l l' -> In x l -> exists y, In y l' /\ P x y.
Proof.
  intros A B P l l' x H. induction H as [|z y l l' XZ H IH]; intros I; [contradiction|]. destruct I as [->|I].
  - exists y. split; [left; reflexivity|exact XZ].
  - destruct (IH I) as (w & I' & P'). exists w. split; [right; exact I'|exact P'].
Qed.
Lemma Forall2_map_same : forall (A B : Type) (f : A -> B) (P : A -> A -> Prop) l l', (forall x y, P x y -> f y = f x) -> Forall2 P l l' -> map f l' = map f l.
Proof. intros A B f P l l' E H. induction H as [|x y l l' XY H IH]; [reflexivity|]. cbn [map]. rewrite IH, (E _ _ XY). reflexivity. Qed.
Lemma Forall2_map_r : forall (A : Type) (P : A -> A -> Prop) (f : A -> A) l, (forall x, In x l -> P x (f x)) -> Forall2 P l (map f l).
Proof. intros A P f l H. induction l as [|x l IH]; constructor; [apply H; left; reflexivity|apply IH; intros y I; apply H; right; exact I]. Qed.

(* A subsequence *)
Inductive sub {A : Type} : list A -> list A -> Prop :=
| sub_nil : sub [] []
| sub_skip : forall x a b, sub a b -> sub a (x :: b)
| sub_keep : forall x a b, sub a b -> sub (x :: a) (x :: b).
Lemma sub_refl : forall (A : Type) (l : list A), sub l l.
Proof. induction l; constructor; assumption. Qed.
Lemma sub_in : forall (A : Type) (a b : list A) x, sub a b -> In x a -> In x b.
Proof. intros A a b x S. induction S; intros I; [exact I|right; auto|destruct I as [->|I]; [left; reflexivity|right; auto]]. Qed.
Lemma sub_map : forall (A B : Type) (f : A -> B) a b, sub a b -> sub (map f a) (map f b).
Proof. intros A B f a b S. induction S; cbn [map]; constructor; assumption. Qed.
Lemma sub_nodup : forall (A : Type) (a b : list A), sub a b -> NoDup b -> NoDup a.
Proof.
  intros A a b S. induction S; intros N; [constructor|inversion N; auto|]. inversion N; subst. constructor; [|auto].
  intros I. apply H1. eapply sub_in; eauto.
Qed.
Lemma sub_filter : forall (A : Type) (p : A -> bool) l, sub (filter p l) l.
Proof. intros A p l. induction l as [|x l IH]; [constructor|]. cbn [filter]. destruct (p x); constructor; exact IH. Qed.

(* ------------------------------------------------------------------ *)
(* Changing the cache keeps the invariant if ids, keys and references survive *)

Lemma qinv_cache : forall s s', qinv s ->
  qh s' = qh s -> qfresh s' = qfresh s -> qlist s' = qlist s -> qtab s' = qtab s -> cfresh s' = cfresh s ->
  length (cache s') = length (cache s) ->
  (forall i, exists l, sub l (centries s i) /\ Forall2 ckeep l (centries s' i)) -> qinv s'.
Proof.
  intros s s' [F L N T1 T2 T3 T4 O C1 C2 C3 C4 C5 C6] E1 E2 E3 E4 E5 E6 H.
  assert (I : forall i c', In c' (centries s' i) -> exists c, In c (centries s i) /\ ckeep c c').
  { intros i c' Ic. destruct (H i) as (l & Sl & Fl). destruct (Forall2_in_r _ _ _ _ _ _ Fl Ic) as (c & Il & K). exists c. split; [eapply sub_in; eauto|exact K]. }
  assert (K1 : forall c c', akey (c_rr c') = akey (c_rr c) -> a_name (c_rr c') = a_name (c_rr c) /\ a_type (c_rr c') = a_type (c_rr c)).
  { intros c c' K. unfold akey in K. split; congruence. }
  split; rewrite ?E1, ?E2, ?E3, ?E4, ?E5, ?E6; try assumption.
  - intros i c' Ic. destruct (I i c' Ic) as (c & Jc & (K2 & K3 & _)). destruct (K1 _ _ K3) as [K4 _]. rewrite K4. apply C2. exact Jc.
  - intros i. destruct (H i) as (l & Sl & Fl). rewrite (Forall2_map_same _ _ c_id ckeep l (centries s' i)); [|intros x y K; apply K|exact Fl].
    eapply sub_nodup; [apply sub_map; exact Sl|apply C3].
  - intros i c' Ic. destruct (I i c' Ic) as (c & Jc & (K2 & _)). rewrite K2. eapply C4. exact Jc.
  - intros i c' q Ic Eq. destruct (I i c' Ic) as (c & Jc & (_ & K3 & [K|K])); [|congruence]. rewrite K in Eq.
    destruct (C5 i c q Jc Eq) as (x & Ex & Mx). exists x. split; [exact Ex|]. unfold c_match in *. destruct (K1 _ _ K3) as [K4 K5]. rewrite K4, K5. exact Mx.
  - intros i. destruct (H i) as (l & Sl & Fl).
    rewrite (Forall2_map_same _ _ (fun c => akey (c_rr c)) ckeep l (centries s' i)); [|intros x y K; apply K|exact Fl].
    eapply sub_nodup; [apply (sub_map _ _ (fun c => akey (c_rr c))); exact Sl|apply C6].
Qed.

Lemma centries_set_same : forall s i l, (i < length (cache s))%nat -> centries (set_centries s i l) i = l.
Proof. intros s i l H. unfold centries, set_centries. cbn [cache set_cache]. apply nth_upd_same. exact H. Qed.
Lemma centries_set_other : forall s i j l, j <> i -> centries (set_centries s i l) j = centries s j.
Proof. intros s i j l H. unfold centries, set_centries. cbn [cache set_cache]. apply nth_upd_other. congruence. Qed.
Lemma centries_big : forall s i, (length (cache s) <= i)%nat -> centries s i = [].
Proof. intros s i H. apply nth_overflow. exact H. Qed.

Lemma set_centries_inv : forall s i l' l, qinv s -> sub l (centries s i) -> Forall2 ckeep l l' -> qinv (set_centries s i l').
Proof.
  intros s i l' l H S F. eapply (qinv_cache s); [exact H|reflexivity..| |].
  - unfold set_centries. cbn [cache set_cache]. apply upd_length.
  - intros j. destruct (Nat.eq_dec j i) as [->|D].
    + destruct (le_lt_dec (length (cache s)) i) as [L|L].
      * exists []. rewrite centries_big in S by exact L. split; [rewrite centries_big by exact L; constructor|].
        rewrite centries_big; [constructor|]. unfold set_centries. cbn [cache set_cache]. rewrite upd_length. exact L.
      * exists l. rewrite centries_set_same by exact L. auto.
    + exists (centries s j). rewrite centries_set_other by exact D. split; [apply sub_refl|]. apply Forall2_refl'. intros c. apply crel_keep. apply crel_refl.
Qed.

Lemma set_cttl_keep : forall c t, ckeep c (set_cttl c t).
Proof. intros c t. split; [reflexivity|]. split; [destruct c as [id [n ty tt rd i4 i6 rn pp w q] cq]; reflexivity|left; reflexivity]. Qed.

(* ------------------------------------------------------------------ *)
(* _q_done *)

Definition del_query (s : qrys) (q : nat) (h : nat -> option query) : Prop := h = fun j => if Nat.eqb j q then None else qh s j.

Lemma map_upd_nodes : forall (A : Type) (l : list (list A)) i, upd l i (nth i l []) = l.
Proof. intros A l. induction l as [|x l IH]; intros [|i]; cbn [upd nth]; [reflexivity..|]. rewrite IH. reflexivity. Qed.

Lemma q_done_spec : forall s q x, qinv s -> qh s q = Some x ->
  exists s', q_done s q = Ok s' /\ qinv s' /\ qh s' q = None /\ (forall j, j <> q -> qh s' j = qh s j) /\
    qlist s' = remove1 q (qlist s) /\
    (forall i, Forall2 crel (centries s i) (centries s' i)) /\
    qfresh s' = qfresh s /\ cfresh s' = cfresh s /\ checkq s' = checkq s /\ ncb s' = ncb s /\ told s' = told s.
Proof.
  intros s q x H E. pose proof H as [F L N T1 T2 T3 T4 O C1 C2 C3 C4 C5 C6].
  unfold q_done. rewrite (qget_some _ _ _ E). cbn [bind]. cbv zeta.
  set (ci := cbucket (q_nm x)). set (cl := map (fun c => if c_match (q_nm x) (q_ty x) c then set_cq c None else c) (centries s ci)).
  assert (Lq : In q (qlist s)) by (apply L; congruence).
  assert (Tq : In q (nth (qbucket (q_nm x)) (qtab s) [])).
  { apply T2 in Lq. apply in_concat_nth in Lq. destruct Lq as (i & Li). rewrite (T4 i q x Li E). exact Li. }
  change (qlist (set_centries s ci cl)) with (qlist s). change (qtab (set_centries s ci cl)) with (qtab s).
  rewrite (proj2 (mem_iff _ _) Lq), (proj2 (mem_iff _ _) Tq). cbn [negb orb].
  set (s1 := set_centries s ci cl).
  assert (CR : forall i, Forall2 crel (centries s i) (centries s1 i)).
  { intros i. destruct (Nat.eq_dec i ci) as [->|D].
    - unfold s1. rewrite centries_set_same by (rewrite C1; apply cbucket_lt). apply Forall2_map_r. intros c _.
      destruct (c_match (q_nm x) (q_ty x) c); [|apply crel_refl]. repeat split. right. reflexivity.
    - unfold s1. rewrite centries_set_other by exact D. apply Forall2_refl'. apply crel_refl. }
  assert (H1 : qinv s1).
  { unfold s1. eapply set_centries_inv; [exact H|apply sub_refl|]. specialize (CR ci). unfold s1 in CR. rewrite centries_set_same in CR by (rewrite C1; apply cbucket_lt).
    clear - CR. induction CR; constructor; [apply crel_keep; assumption|assumption]. }
  eexists. split; [reflexivity|]. cbn [qh qlist qfresh cfresh checkq ncb told].
  set (s2 := mkqrys _ _ _ _ _ _ _ _ _).
  assert (CE : forall i, centries s2 i = centries s1 i) by reflexivity.
  split; [|split; [|split; [|split; [reflexivity|split; [|repeat split]]]]].
  - destruct H1 as [G1 G2 G3 G4 G5 G6 G7 G8 K1 K2 K3 K4 K5 K6]. split; cbn [s2 qh qfresh qlist qtab cfresh]; try assumption.
    + intros p. destruct (Nat.eqb p q); [congruence|]. apply F.
    + intros p. rewrite remove1_in_iff by exact N. rewrite <- L. destruct (Nat.eqb_spec p q) as [->|D]; intuition congruence.
    + apply remove1_nodup. exact N.
    + rewrite upd_length. exact T1.
    + intros p. rewrite remove1_in_iff by exact N. rewrite in_upd by (rewrite T1; apply qbucket_lt).
      rewrite remove1_in_iff by (apply (nodup_concat_nth _ _ _ T3)). rewrite <- T2. rewrite in_concat_nth. split.
      * intros [[I D]|(j & Dj & I)]; [split; [exists (qbucket (q_nm x)); exact I|exact D]|]. split; [exists j; exact I|].
        intros ->. apply Dj. symmetry. apply (T4 j q x I E).
      * intros [(j & I) D]. destruct (Nat.eq_dec j (qbucket (q_nm x))) as [->|Dj]; [left; auto|right; exists j; auto].
    + apply nodup_concat_sub; [exact T3|apply remove1_nodup; apply (nodup_concat_nth _ _ _ T3)|]. intros p I. eapply remove1_in; exact I.
    + intros i p y I Ey. destruct (Nat.eqb_spec p q) as [->|D]; [discriminate|]. apply (T4 i p y); [|exact Ey].
      destruct (Nat.eq_dec i (qbucket (q_nm x))) as [->|Di].
      * rewrite nth_upd_same in I by (rewrite T1; apply qbucket_lt). eapply remove1_in; exact I.
      * rewrite nth_upd_other in I by congruence. exact I.
    + intros a b y z Ey Ez. destruct (Nat.eqb a q); [discriminate|]. destruct (Nat.eqb b q); [discriminate|]. apply O; assumption.
    + intros i c p I Ep. rewrite CE in I.
      destruct (Forall2_in_r _ _ _ _ _ _ (CR i) I) as (c0 & I0 & (R1 & R2 & R3)).
      assert (E0 : c_q c0 = Some p) by (destruct R3; congruence).
      destruct (C5 i c0 p I0 E0) as (y & Ey & My). exists y. split; [|unfold c_match in *; rewrite R2; exact My].
      destruct (Nat.eqb_spec p q) as [->|D]; [exfalso|exact Ey]. replace y with x in * by congruence.
      assert (Bi : i = ci). { rewrite <- (C2 i c0 I0). unfold ci, c_match in *. apply andb_true_iff in My as [_ My]. apply bytes_eqb_eq in My. rewrite My. reflexivity. }
      subst i. unfold s1 in I. rewrite centries_set_same in I by (rewrite C1; apply cbucket_lt). unfold cl in I. apply in_map_iff in I. destruct I as (c1 & Ec & I1).
      destruct (c_match (q_nm x) (q_ty x) c1) eqn:M1; [subst c; discriminate|]. subst c1. unfold c_match in *. rewrite R2 in M1. congruence.
  - cbn [s2 qh]. rewrite Nat.eqb_refl. reflexivity.
  - intros j D. cbn [s2 qh]. apply Nat.eqb_neq in D. rewrite D. reflexivity.
  - intros i. rewrite CE. apply CR.
Qed.
