(* Expiry, caching and registering queries keep the invariant. *)
From Verif Require Import Base Lemmas Hash HashProofs XhtProofs Wire Rec Qry RecInv RecSafe RecOps OutSafe QryInv.

Lemma set_centries_id : forall s i, set_centries s i (centries s i) = s.
Proof. intros s i. unfold set_centries, centries. rewrite map_upd_nodes. destruct s. reflexivity. Qed.

(* A callback made for a registered query that the record answers *)
Definition asked_for (x : query) (a : answer) : Prop := a_name a = q_nm x /\ (q_ty x = a_type a \/ q_ty x = QTYPE_ANY).
Definition called (s : qrys) (t : nat * answer) : Prop :=
  exists q x, qh s q = Some x /\ q_cb x = fst t /\ asked_for x (snd t).

Lemma c_match_iff : forall n ty c, c_match n ty c = true <-> a_name (c_rr c) = n /\ (ty = a_type (c_rr c) \/ ty = QTYPE_ANY).
Proof.
  intros n ty c. unfold c_match. rewrite andb_true_iff, orb_true_iff, bytes_eqb_eq, !Z.eqb_eq. tauto.
Qed.

(* Queries are only removed; T is what callbacks were told, and a query whose
   callback returned -1 is gone. *)
Record shrinks (cb : nat -> bool) (s s' : qrys) (T : list (nat * answer)) : Prop := mkshrinks {
  sh_told : told s' = told s ++ T;
  sh_ncb : ncb s' = (ncb s + length T)%nat;
  sh_called : Forall (called s) T;
  sh_qh : forall q x, qh s' q = Some x -> qh s q = Some x;
  sh_qfresh : qfresh s' = qfresh s; sh_cfresh : (cfresh s <= cfresh s')%nat; sh_checkq : checkq s' = checkq s;
  sh_gone : forall i t, nth_error T i = Some t -> cb (ncb s + i)%nat = true ->
    exists q x, qh s q = Some x /\ q_cb x = fst t /\ asked_for x (snd t) /\ qh s' q = None
}.
Lemma shrinks_refl : forall cb s, shrinks cb s s [].
Proof. intros cb s. split; auto; [rewrite app_nil_r; reflexivity|]. intros [|i] t; discriminate. Qed.
Lemma shrinks_trans : forall cb a b c T U, shrinks cb a b T -> shrinks cb b c U -> shrinks cb a c (T ++ U).
Proof.
  intros cb a b c T U [A1 A2 A3 A4 A5 A6 A7 A8] [B1 B2 B3 B4 B5 B6 B7 B8]. split; try congruence; try lia.
  - rewrite B1, A1, app_assoc. reflexivity.
  - rewrite B2, A2, app_length. lia.
  - apply Forall_app. split; [exact A3|]. eapply Forall_impl; [|exact B3]. intros t (q & x & E & K). exists q, x. split; [apply A4; exact E|exact K].
  - intros q x E. apply A4, B4. exact E.
  - intros i t E C. destruct (Nat.lt_ge_cases i (length T)) as [L|L].
    + rewrite nth_error_app1 in E by exact L. destruct (A8 i t E C) as (q & x & K1 & K2 & K3 & K4). exists q, x. repeat (split; [assumption|]).
      destruct (qh c q) eqn:Eq; [|reflexivity]. apply B4 in Eq. congruence.
    + rewrite nth_error_app2 in E by exact L. destruct (B8 _ t E) as (q & x & K1 & K2 & K3 & K4).
      * rewrite A2. replace (ncb a + length T + (i - length T))%nat with (ncb a + i)%nat by lia. exact C.
      * exists q, x. split; [apply A4; exact K1|]. auto.
Qed.

(* The TTL passed to the callback *)
Definition ttl_now (now : Z) (a : answer) : answer := if a_ttl a <=? now then set_ttl a 0 else a.
Definition with_ttl (id : nat) (t : Z) (l : list cached) : list cached :=
  map (fun x => if Nat.eqb (c_id x) id then set_cttl x t else x) l.

Lemma q_answer_spec : forall s now cb c q x, qinv s -> c_q c = Some q -> qh s q = Some x -> asked_for x (c_rr c) ->
  exists s', q_answer s now cb c = Ok s' /\ qinv s' /\ shrinks cb s s' [(q_cb x, ttl_now now (c_rr c))] /\
    let i := cbucket (a_name (c_rr c)) in
    let s0 := set_centries s i (with_ttl (c_id c) (a_ttl (ttl_now now (c_rr c))) (centries s i)) in
    (forall j, Forall2 crel (centries s0 j) (centries s' j)) /\
    (cb (ncb s) = false -> s' = tell s0 (q_cb x) (ttl_now now (c_rr c))) /\
    (cb (ncb s) = true -> qh s' q = None /\ forall j, j <> q -> qh s' j = qh s j).
Proof.
  intros s now cb c q x H Eq Ex As. unfold q_answer. cbv zeta.
  assert (RE : c_rr (if a_ttl (c_rr c) <=? now then set_cttl c 0 else c) = ttl_now now (c_rr c)).
  { unfold ttl_now. destruct (a_ttl (c_rr c) <=? now); reflexivity. }
  rewrite RE, Eq. fold (with_ttl (c_id c) (a_ttl (ttl_now now (c_rr c))) (centries s (cbucket (a_name (c_rr c))))).
  set (i := cbucket (a_name (c_rr c))). set (s0 := set_centries s i (with_ttl (c_id c) (a_ttl (ttl_now now (c_rr c))) (centries s i))).
  assert (H0 : qinv s0).
  { eapply set_centries_inv; [exact H|apply sub_refl|]. apply Forall2_map_r. intros y _. destruct (Nat.eqb (c_id y) (c_id c)); [apply set_cttl_keep|].
    apply crel_keep, crel_refl. }
  assert (E0 : qh s0 q = Some x) by exact Ex.
  rewrite (qget_some _ _ _ E0). cbn [bind]. set (s1 := tell s0 (q_cb x) (ttl_now now (c_rr c))). change (ncb s0) with (ncb s).
  assert (H1 : qinv s1) by (destruct H0; split; assumption).
  assert (As' : asked_for x (ttl_now now (c_rr c))).
  { unfold ttl_now. destruct (a_ttl (c_rr c) <=? now); [|exact As]. exact As. }
  assert (Sh : forall s', (forall j y, qh s' j = Some y -> qh s j = Some y) -> told s' = told s1 -> ncb s' = ncb s1 -> qfresh s' = qfresh s -> cfresh s' = cfresh s -> checkq s' = checkq s -> (cb (ncb s) = true -> qh s' q = None) ->
               shrinks cb s s' [(q_cb x, ttl_now now (c_rr c))]).
  { intros s' A B C D E F G. split; try assumption; try lia.
    - rewrite C. cbn [s1 tell ncb length]. change (ncb s0) with (ncb s). lia.
    - constructor; [|constructor]. exists q, x. auto.
    - intros [|[|n]] t; cbn [nth_error]; try discriminate. intros [= <-] K. rewrite Nat.add_0_r in K. exists q, x. auto. }
  destruct (cb (ncb s)).
  - destruct (q_done_spec s1 q x H1 E0) as (s' & E' & H' & N' & O' & _ & R' & F1 & F2 & F3 & F4 & F5).
    exists s'. split; [exact E'|]. split; [exact H'|]. split; [apply Sh; try assumption; [|intros _; exact N']|split; [exact R'|split; [discriminate|]]].
    + intros j y Ey. destruct (Nat.eq_dec j q) as [->|D]; [congruence|]. rewrite O' in Ey by exact D. exact Ey.
    + intros _. split; [exact N'|]. intros j D. rewrite O' by exact D. reflexivity.
  - exists s1. split; [reflexivity|]. split; [exact H1|]. split; [apply Sh; auto; discriminate|]. split; [intros j; apply Forall2_refl'; apply crel_refl|]. split; [reflexivity|discriminate].
Qed.

(* If the entry is not in the cache, nothing there changes. *)
Lemma with_ttl_notin : forall id t l, ~ In id (map c_id l) -> with_ttl id t l = l.
Proof.
  intros id t l. unfold with_ttl. induction l as [|c l IH]; intros N; [reflexivity|]. cbn [map]. cbn [map In] in N.
  destruct (Nat.eqb_spec (c_id c) id) as [E|E]; [tauto|]. rewrite IH; [reflexivity|tauto].
Qed.

(* ------------------------------------------------------------------ *)
(* _c_expire *)

Definition alive (now : Z) (c : cached) : bool := now <? a_ttl (c_rr c).

(* What expiry tells: each expired entry that belongs to a query *)
Definition expiry (s : qrys) (now : Z) (c : cached) : list (nat * answer) :=
  if a_ttl (c_rr c) <=? now then
    match c_q c with
    | Some q => match qh s q with Some x => [(q_cb x, set_ttl (c_rr c) 0)] | None => [] end
    | None => []
    end
  else [].

Lemma find_entry_mid : forall (a : list cached) c b, NoDup (map c_id (a ++ c :: b)) -> find_entry (c_id c) (a ++ c :: b) = Some c.
Proof.
  induction a as [|x a IH]; intros c b N; unfold find_entry; cbn [app find].
  - rewrite Nat.eqb_refl. reflexivity.
  - cbn [app map] in N. inversion N as [|? ? N1 N2]; subst. destruct (Nat.eqb_spec (c_id x) (c_id c)) as [E|E].
    + exfalso. apply N1. rewrite E, map_app. apply in_or_app. right. left. reflexivity.
    + apply IH. exact N2.
Qed.
Lemma drop_entry_mid : forall (a : list cached) c b, NoDup (map c_id (a ++ c :: b)) -> drop_entry (c_id c) (a ++ c :: b) = a ++ b.
Proof.
  assert (K : forall id l, ~ In id (map c_id l) -> drop_entry id l = l).
  { intros id l. induction l as [|x l IH]; intros N; [reflexivity|]. unfold drop_entry. cbn [filter]. cbn [map In] in N.
    destruct (Nat.eqb_spec (c_id x) id) as [E|E]; [tauto|]. cbn [negb]. f_equal. apply IH. tauto. }
  intros a c b N. rewrite map_app in N. cbn [map] in N. pose proof (NoDup_remove_2 _ _ _ N) as N2. unfold drop_entry. rewrite filter_app. cbn [filter].
  rewrite Nat.eqb_refl. cbn [negb]. fold (drop_entry (c_id c) a). fold (drop_entry (c_id c) b).
  rewrite in_app_iff in N2. rewrite !K by tauto. reflexivity.
Qed.

Lemma Forall2_app_l : forall (A B : Type) (P : A -> B -> Prop) a1 a2 b, Forall2 P (a1 ++ a2) b ->
  exists b1 b2, b = b1 ++ b2 /\ Forall2 P a1 b1 /\ Forall2 P a2 b2.
Proof.
  intros A B P a1. induction a1 as [|x a1 IH]; intros a2 b F; cbn [app] in F.
  - exists [], b. repeat split; [constructor|exact F].
  - inversion F as [|? y ? b' Pxy F']; subst. destruct (IH _ _ F') as (b1 & b2 & -> & F1 & F2). exists (y :: b1), b2. repeat split; [constructor; assumption|exact F2].
Qed.

Lemma filter_crel : forall now l l', Forall2 crel l l' -> Forall2 crel (filter (alive now) l) (filter (alive now) l').
Proof.
  intros now l l' F. induction F as [|x y l l' P F IH]; [constructor|]. cbn [filter].
  assert (E : alive now y = alive now x) by (destruct P as (_ & P & _); unfold alive; rewrite P; reflexivity).
  rewrite E. destruct (alive now x); [constructor; assumption|exact IH].
Qed.

Lemma sub_drop : forall (A : Type) (a : list A) x b, sub (a ++ b) (a ++ x :: b).
Proof. intros A a x b. induction a as [|y a IH]; cbn [app]; constructor; [apply sub_refl|exact IH]. Qed.

Lemma map_id_crel : forall l l', Forall2 crel l l' -> map c_id l' = map c_id l.
Proof. intros l l' F. apply (Forall2_map_same _ _ c_id crel); [intros x y K; apply K|exact F]. Qed.

Lemma expire_loop_spec : forall ids rem s now cb i kept, map c_id rem = ids -> qinv s -> (i < Z.to_nat LPRIME)%nat -> centries s i = kept ++ rem ->
  exists s' T, expire_loop s now cb i ids = Ok s' /\ qinv s' /\ shrinks cb s s' T /\
    Forall2 crel (kept ++ filter (alive now) rem) (centries s' i) /\ (forall j, j <> i -> Forall2 crel (centries s j) (centries s' j)) /\
    ((forall k, cb k = false) -> qh s' = qh s /\ qlist s' = qlist s /\ qtab s' = qtab s /\ centries s' i = kept ++ filter (alive now) rem /\
       (forall j, j <> i -> centries s' j = centries s j) /\ T = flat_map (expiry s now) rem).
Proof.
  induction ids as [|id ids IH]; intros rem s now cb i kept Eid H Li Ec.
  - destruct rem; [|discriminate]. exists s, []. cbn [expire_loop filter flat_map]. split; [reflexivity|]. split; [exact H|]. split; [apply shrinks_refl|]. rewrite app_nil_r in *. rewrite Ec.
    split; [apply Forall2_refl'; apply crel_refl|]. split; [intros; apply Forall2_refl'; apply crel_refl|]. intros _. repeat split.
  - destruct rem as [|c rem]; [discriminate|]. cbn [map] in Eid. injection Eid as Eid1 Eid2. subst id.
    cbn [expire_loop]. rewrite Ec. pose proof (qi_cid _ H i) as ND. rewrite Ec in ND. rewrite find_entry_mid by exact ND.
    assert (Lc : (i < length (cache s))%nat) by (rewrite (qi_clen _ H); exact Li).
    assert (Ic : In c (centries s i)) by (rewrite Ec; apply in_or_app; right; left; reflexivity).
    destruct (a_ttl (c_rr c) <=? now) eqn:Ex.
    + rewrite drop_entry_mid by exact ND. set (s1 := set_centries s i (kept ++ rem)).
      assert (H1 : qinv s1).
      { eapply set_centries_inv; [exact H| |apply Forall2_refl'; intros; apply crel_keep, crel_refl]. rewrite Ec. apply sub_drop. }
      assert (E1 : centries s1 i = kept ++ rem) by (apply centries_set_same; exact Lc).
      assert (O1 : forall j, j <> i -> centries s1 j = centries s j) by (intros j D; apply centries_set_other; exact D).
      assert (Fi : filter (alive now) (c :: rem) = filter (alive now) rem).
      { cbn [filter]. unfold alive at 1. replace (now <? a_ttl (c_rr c)) with false by lia. reflexivity. }
      assert (S1 : forall s' T, shrinks cb s1 s' T -> shrinks cb s s' T).
      { intros s' T [A1 A2 A3 A4 A5 A6 A7 A8]. split; assumption. }
      rewrite Fi. cbn [flat_map]. unfold expiry at 1. rewrite Ex.
      destruct (c_q c) as [q|] eqn:Eq.
      * destruct (qi_cq _ H i c q Ic Eq) as (x & Eqx & Mx). apply c_match_iff in Mx as Mx'.
        destruct (q_answer_spec s1 now cb c q x H1 Eq Eqx Mx') as (s2 & E2 & H2 & S2 & R2 & F2 & T2). rewrite E2. cbn [bind]. cbv zeta in R2, F2.
        assert (Bi : cbucket (a_name (c_rr c)) = i) by (apply (qi_cbucket _ H i c Ic)). rewrite Bi in R2, F2.
        assert (NC : ~ In (c_id c) (map c_id (centries s1 i))).
        { rewrite E1. rewrite map_app in *. cbn [map] in ND. exact (NoDup_remove_2 _ _ _ ND). }
        rewrite (with_ttl_notin _ _ _ NC), set_centries_id in R2, F2.
        pose proof (R2 i) as R2i. rewrite E1 in R2i. destruct (Forall2_app_l _ _ _ _ _ _ R2i) as (kept' & rem' & Es2 & Fk & Fr).
        destruct (IH rem' s2 now cb i kept') as (s' & T & E' & H' & S' & R' & O' & Z').
        { rewrite (map_id_crel _ _ Fr). exact Eid2. }
        { exact H2. } { exact Li. } { exact Es2. }
        exists s', ((q_cb x, ttl_now now (c_rr c)) :: T). split; [exact E'|]. split; [exact H'|].
        split; [apply (shrinks_trans cb s s2 s' [_] T); [apply S1; exact S2|exact S']|].
        split; [|split].
        -- eapply (Forall2_trans' _ crel crel_trans); [|exact R']. apply Forall2_app; [exact Fk|apply filter_crel; exact Fr].
        -- intros j D. eapply (Forall2_trans' _ crel crel_trans); [|apply O'; exact D]. rewrite <- (O1 j D). apply R2.
        -- intros Cb. specialize (F2 (Cb _)). destruct (Z' Cb) as (Z1 & Z2 & Z3 & Z4 & Z5 & Z6).
           assert (C2 : forall j, centries s2 j = centries s1 j) by (intros j; rewrite F2; reflexivity).
           assert (Er : kept' = kept /\ rem' = rem).
           { rewrite C2, E1 in Es2. pose proof (map_id_crel _ _ Fk) as M. apply (f_equal (@length nat)) in M. rewrite !map_length in M.
             clear - Es2 M. revert kept' Es2 M. induction kept as [|y k IH]; intros [|z k'] E M; cbn in *; try discriminate; [auto|].
             injection E as -> E. injection M as M. destruct (IH k' E M) as [-> ->]. auto. }
           destruct Er as [-> ->]. rewrite Eqx.
           repeat split.
           ++ rewrite Z1, F2. reflexivity.
           ++ rewrite Z2, F2. reflexivity.
           ++ rewrite Z3, F2. reflexivity.
           ++ exact Z4.
           ++ intros j D. rewrite (Z5 j D), C2, (O1 j D). reflexivity.
           ++ rewrite Z6. cbn [app]. unfold ttl_now. rewrite Ex. f_equal. apply flat_map_ext. intros y. unfold expiry. rewrite F2. reflexivity.
      * cbn [bind]. destruct (IH rem s1 now cb i kept Eid2 H1 Li E1) as (s' & T & E' & H' & S' & R' & O' & Z').
        exists s', T. split; [exact E'|]. split; [exact H'|]. split; [apply S1; exact S'|]. split; [exact R'|]. split.
        -- intros j D. rewrite <- (O1 j D). apply O'. exact D.
        -- intros Cb. destruct (Z' Cb) as (Z1 & Z2 & Z3 & Z4 & Z5 & Z6). repeat split; try assumption.
           intros j D. rewrite (Z5 j D). apply O1. exact D.
    + destruct (IH rem s now cb i (kept ++ [c]) Eid2 H Li) as (s' & T & E' & H' & S' & R' & O' & Z').
      { rewrite <- app_assoc. exact Ec. }
      assert (Fi : kept ++ filter (alive now) (c :: rem) = (kept ++ [c]) ++ filter (alive now) rem).
      { cbn [filter]. unfold alive at 1. replace (now <? a_ttl (c_rr c)) with true by lia. rewrite <- app_assoc. reflexivity. }
      exists s', T. rewrite Fi. cbn [flat_map]. unfold expiry at 1. rewrite Ex. cbn [app].
      split; [exact E'|]. split; [exact H'|]. split; [exact S'|]. split; [exact R'|]. split; [exact O'|exact Z'].
Qed.

Lemma c_expire_spec : forall s now cb i, qinv s -> (i < Z.to_nat LPRIME)%nat ->
  exists s' T, c_expire s now cb i = Ok s' /\ qinv s' /\ shrinks cb s s' T /\
    Forall2 crel (filter (alive now) (centries s i)) (centries s' i) /\ (forall j, j <> i -> Forall2 crel (centries s j) (centries s' j)) /\
    ((forall k, cb k = false) -> qh s' = qh s /\ qlist s' = qlist s /\ qtab s' = qtab s /\ centries s' i = filter (alive now) (centries s i) /\
       (forall j, j <> i -> centries s' j = centries s j) /\ T = flat_map (expiry s now) (centries s i)).
Proof.
  intros s now cb i H Li. unfold c_expire. exact (expire_loop_spec _ (centries s i) s now cb i [] eq_refl H Li eq_refl).
Qed.

(* ------------------------------------------------------------------ *)
(* _gc *)

Lemma gc_loop_spec : forall is s now cb, qinv s -> (forall i, In i is -> (i < Z.to_nat LPRIME)%nat) ->
  exists s' T, gc_loop s now cb is = Ok s' /\ qinv s' /\ shrinks cb s s' T /\
    (forall j, ~ In j is -> Forall2 crel (centries s j) (centries s' j)) /\
    (NoDup is -> forall j, In j is -> Forall2 crel (filter (alive now) (centries s j)) (centries s' j)) /\
    ((forall k, cb k = false) -> qh s' = qh s /\ qlist s' = qlist s /\ qtab s' = qtab s).
Proof.
  induction is as [|i is IH]; intros s now cb H Li.
  - exists s, []. split; [reflexivity|]. split; [exact H|]. split; [apply shrinks_refl|]. split; [intros; apply Forall2_refl'; apply crel_refl|].
    split; [intros _ j []|]. auto.
  - cbn [gc_loop]. destruct (c_expire_spec s now cb i H (Li i (or_introl eq_refl))) as (s1 & T1 & E1 & H1 & S1 & R1 & O1 & Z1). rewrite E1. cbn [bind].
    destruct (IH s1 now cb H1 (fun j I => Li j (or_intror I))) as (s' & T & E' & H' & S' & O' & R' & Z').
    exists s', (T1 ++ T). split; [exact E'|]. split; [exact H'|]. split; [eapply shrinks_trans; eauto|]. split; [|split].
    + intros j N. cbn [In] in N. eapply (Forall2_trans' _ crel crel_trans); [apply O1|apply O']; intuition congruence.
    + intros ND j [->|I]; inversion ND as [|? ? N1 N2]; subst.
      * eapply (Forall2_trans' _ crel crel_trans); [exact R1|apply O'; exact N1].
      * eapply (Forall2_trans' _ crel crel_trans); [|apply R'; assumption]. apply filter_crel. apply O1. intros ->. contradiction.
    + intros Cb. destruct (Z1 Cb) as (A1 & A2 & A3 & _). destruct (Z' Cb) as (B1 & B2 & B3). repeat split; congruence.
Qed.

Lemma gc_spec : forall s now cb, qinv s ->
  exists s' T, gc s now cb = Ok s' /\ qinv s' /\ shrinks cb s s' T /\ (forall j, Forall2 crel (filter (alive now) (centries s j)) (centries s' j)) /\
    ((forall k, cb k = false) -> qh s' = qh s /\ qlist s' = qlist s /\ qtab s' = qtab s).
Proof.
  intros s now cb H. unfold gc.
  destruct (gc_loop_spec (seq 0 (Z.to_nat LPRIME)) s now cb H) as (s' & T & E' & H' & S' & O' & R' & Z').
  { intros i I. apply in_seq in I. lia. }
  exists s', T. split; [exact E'|]. split; [exact H'|]. split; [exact S'|]. split; [|exact Z'].
  intros j. destruct (le_lt_dec (Z.to_nat LPRIME) j) as [L|L].
  - rewrite !centries_big by (rewrite qi_clen; assumption). constructor.
  - apply R'; [apply seq_NoDup|apply in_seq; lia].
Qed.
