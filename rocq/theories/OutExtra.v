(* The additional section and the unicast answers of mdnsd_out. *)
From Verif Require Import Base Lemmas Hash HashProofs Wire Rec Qry Out RecInv RecSafe RecOps RecAddr OutSafe.

(* Message calls for an additional record *)
Definition extra_calls (cls : Z) (X : mrec) : list mcall :=
  MRr SAr (a_name (rr X)) (a_type (rr X)) (cls + flush_bit X) (a_ttl (rr X)) :: a_copy (rr X).
Definition extras (cls : Z) (h : heap) (l : list nat) : list mcall := flat_map (at_rec h (extra_calls cls)) l.

Lemma extras_app : forall cls h a b, extras cls h (a ++ b) = extras cls h a ++ extras cls h b.
Proof. intros cls h a b. unfold extras. apply flat_map_app. Qed.

(* Records satisfying P are appended, each new and fitting at that moment. *)
Definition grows (s : recs) (frm cls : Z) (P : nat -> mrec -> Prop) (m : list mcall) (seen : list nat) (m' : list mcall) (seen' : list nat) (added : list nat) : Prop :=
  m' = m ++ extras cls (hp s) added /\ seen' = fold_left answered_add added seen /\
  (forall a x b, added = a ++ x :: b -> exists X, hp s x = Some X /\ P x X /\ ~ In x (fold_left answered_add a seen) /\
                                       mlen (m ++ extras cls (hp s) a) + rr_len (rr X) < frm).

Lemma grows_refl : forall s frm cls P m seen, grows s frm cls P m seen m seen [].
Proof.
  intros. split; [cbn [extras flat_map]; symmetry; apply app_nil_r|]. split; [reflexivity|]. intros a x b K. destruct a; discriminate.
Qed.

Lemma app_split : forall (A : Type) (a1 a2 : list A) a x b, a1 ++ a2 = a ++ x :: b ->
  (exists b', a1 = a ++ x :: b' /\ b = b' ++ a2) \/ (exists a', a = a1 ++ a' /\ a2 = a' ++ x :: b).
Proof.
  induction a1 as [|y a1 IH]; intros a2 a x b E.
  - right. exists a. auto.
  - destruct a as [|z a]; cbn [app] in E; inversion E; subst.
    + left. exists a1. auto.
    + destruct (IH _ _ _ _ H1) as [(b' & -> & ->)|(a' & -> & ->)]; [left; exists b'; auto|right; exists a'; auto].
Qed.

Lemma grows_trans : forall s frm cls P m0 e0 m1 e1 m2 e2 a1 a2, grows s frm cls P m0 e0 m1 e1 a1 -> grows s frm cls P m1 e1 m2 e2 a2 ->
  grows s frm cls P m0 e0 m2 e2 (a1 ++ a2).
Proof.
  intros s frm cls P m0 e0 m1 e1 m2 e2 a1 a2 (M1 & S1 & X1) (M2 & S2 & X2). split; [|split].
  - rewrite M2, M1, extras_app, app_assoc. reflexivity.
  - rewrite S2, S1, fold_left_app. reflexivity.
  - intros a x b E. destruct (app_split _ _ _ _ _ _ E) as [(b' & E1 & _)|(a' & E1 & E2)].
    + destruct (X1 _ _ _ E1) as (X & A & B & C & D). exists X. auto.
    + destruct (X2 _ _ _ E2) as (X & A & B & C & D). exists X. subst a. rewrite fold_left_app, <- S1, extras_app, app_assoc, <- M1. auto.
Qed.

Lemma grows_impl : forall s frm cls (P Q : nat -> mrec -> Prop) m e m' e' a, (forall x X, hp s x = Some X -> P x X -> Q x X) ->
  grows s frm cls P m e m' e' a -> grows s frm cls Q m e m' e' a.
Proof.
  intros s frm cls P Q m e m' e' a I (M & S & X). split; [exact M|]. split; [exact S|]. intros a0 x b E.
  destruct (X _ _ _ E) as (Y & A & B & C & D). exists Y. repeat split; auto.
Qed.

Lemma ar_spec : forall s frm cls m r seen X, hp s r = Some X ->
  exists m' seen' added, ar s frm cls m r seen = Ok (m', seen') /\ grows s frm cls (fun x _ => x = r) m seen m' seen' added.
Proof.
  intros s frm cls m r seen X E. unfold ar. destruct (mem r seen) eqn:M.
  - exists m, seen, []. split; [reflexivity|apply grows_refl].
  - rewrite (hget_some _ _ _ E). cbn [bind]. destruct (frm <=? mlen m + rr_len (rr X)) eqn:F.
    + exists m, seen, []. split; [reflexivity|apply grows_refl].
    + eexists; eexists; exists [r]. split; [reflexivity|]. split; [|split; [reflexivity|]].
      * cbn [extras flat_map]. unfold at_rec. rewrite E, app_nil_r. reflexivity.
      * intros a x b K. destruct a as [|? a]; inversion K; subst; [|destruct a; discriminate].
        exists X. split; [exact E|]. split; [reflexivity|]. split; [apply mem_false; exact M|]. cbn [extras flat_map]. rewrite app_nil_r. lia.
Qed.

Definition is_addr (X : mrec) : Prop := a_type (rr X) = QTYPE_A \/ a_type (rr X) = QTYPE_AAAA.
Definition address_of (n : list Z) (X : mrec) : Prop := a_name (rr X) = n /\ is_addr X.

Lemma ar_addr_loop_spec : forall l s frm cls host m seen, all_live (hp s) l ->
  exists m' seen' added, ar_addr_loop s frm cls l host m seen = Ok (m', seen') /\ grows s frm cls (fun _ X => address_of host X) m seen m' seen' added.
Proof.
  induction l as [|x l IH]; intros s frm cls host m seen L.
  - exists m, seen, []. split; [reflexivity|apply grows_refl].
  - apply all_live_cons in L. destruct L as [(X & E) L]. cbn [ar_addr_loop]. rewrite (hget_some _ _ _ E). cbn [bind].
    destruct (bytes_eqb (a_name (rr X)) host && ((a_type (rr X) =? QTYPE_A) || (a_type (rr X) =? QTYPE_AAAA))) eqn:M.
    + apply andb_true_iff in M as [M1 M2]. apply bytes_eqb_eq in M1. apply orb_true_iff in M2.
      destruct (ar_spec s frm cls m x seen X E) as (m1 & s1 & a1 & E1 & G1). rewrite E1. cbn [bind].
      destruct (IH s frm cls host m1 s1 L) as (m2 & s2 & a2 & E2 & G2). exists m2, s2, (a1 ++ a2). split; [exact E2|].
      eapply grows_trans; [|exact G2]. eapply grows_impl; [|exact G1]. intros y Y EY ->. replace Y with X in * by congruence.
      split; [exact M1|]. unfold is_addr. lia.
    + cbn [bind]. exact (IH s frm cls host m seen L).
Qed.

Lemma ar_addr_spec : forall s frm cls host m seen, pok s ->
  exists m' seen' added, ar_addr s frm cls host m seen = Ok (m', seen') /\
    grows s frm cls (fun _ X => exists n, host = Some n /\ address_of n X) m seen m' seen' added.
Proof.
  intros s frm cls host m seen P. unfold ar_addr. destruct host as [h|].
  - destruct (ar_addr_loop_spec (mdnsd_get_published s h) s frm cls h m seen (chain_of_live s h P)) as (m' & s' & a & E & G).
    exists m', s', a. split; [exact E|]. eapply grows_impl; [|exact G]. intros x X _ K. exists h. auto.
  - exists m, seen, []. split; [reflexivity|apply grows_refl].
Qed.

(* What belongs to a service instance: its SRV and TXT records and the addresses
   of the SRV's target. *)
Definition of_instance (s : recs) (n : list Z) (X : mrec) : Prop :=
  (a_name (rr X) = n /\ (a_type (rr X) = QTYPE_SRV \/ a_type (rr X) = QTYPE_TXT)) \/
  (exists y Y h, hp s y = Some Y /\ a_name (rr Y) = n /\ a_type (rr Y) = QTYPE_SRV /\ a_rdname (rr Y) = Some h /\ address_of h X).

Lemma additional_loop_spec : forall l s frm cls n m seen, pok s -> all_live (hp s) l ->
  exists m' seen' added, additional_loop s frm cls l n m seen = Ok (m', seen') /\ grows s frm cls (fun _ X => of_instance s n X) m seen m' seen' added.
Proof.
  induction l as [|x l IH]; intros s frm cls n m seen P L.
  - exists m, seen, []. split; [reflexivity|apply grows_refl].
  - apply all_live_cons in L. destruct L as [(X & E) L]. cbn [additional_loop]. rewrite (hget_some _ _ _ E). cbn [bind].
    destruct (bytes_eqb (a_name (rr X)) n) eqn:M; cbn [negb].
    + apply bytes_eqb_eq in M. destruct (a_type (rr X) =? QTYPE_SRV) eqn:TS.
      * destruct (ar_spec s frm cls m x seen X E) as (m1 & s1 & a1 & E1 & G1). rewrite E1. cbn [bind].
        destruct (ar_addr_spec s frm cls (a_rdname (rr X)) m1 s1 P) as (m2 & s2 & a2 & E2 & G2). rewrite E2. cbn [bind].
        destruct (IH s frm cls n m2 s2 P L) as (m3 & s3 & a3 & E3 & G3). exists m3, s3, (a1 ++ a2 ++ a3). split; [exact E3|].
        eapply grows_trans; [|eapply grows_trans; [|exact G3]].
        -- eapply grows_impl; [|exact G1]. intros y Y EY ->. replace Y with X in * by congruence. left. split; [exact M|]. left. lia.
        -- eapply grows_impl; [|exact G2]. intros y Y EY (h & Eh & K). right. exists x, X, h. repeat split; try assumption; try lia; apply K.
      * destruct (a_type (rr X) =? QTYPE_TXT) eqn:TT.
        -- destruct (ar_spec s frm cls m x seen X E) as (m1 & s1 & a1 & E1 & G1). rewrite E1. cbn [bind].
           destruct (IH s frm cls n m1 s1 P L) as (m3 & s3 & a3 & E3 & G3). exists m3, s3, (a1 ++ a3). split; [exact E3|].
           eapply grows_trans; [|exact G3]. eapply grows_impl; [|exact G1]. intros y Y EY ->. replace Y with X in * by congruence. left. split; [exact M|]. right. lia.
        -- cbn [bind]. exact (IH s frm cls n m seen P L).
    + cbn [bind]. exact (IH s frm cls n m seen P L).
Qed.

(* RFC 6763 section 12: what accompanies the answer A. *)
Definition accompanies (s : recs) (A X : mrec) : Prop :=
  (a_type (rr A) = QTYPE_SRV /\ exists h, a_rdname (rr A) = Some h /\ address_of h X) \/
  (a_type (rr A) = QTYPE_PTR /\ a_name (rr A) <> DISCO_NAME /\ exists n, a_rdname (rr A) = Some n /\ of_instance s n X).

Lemma additional_spec : forall s frm cls m ans seen A, pok s -> hp s ans = Some A ->
  exists m' seen' added, additional s frm cls m ans seen = Ok (m', seen') /\ grows s frm cls (fun _ X => accompanies s A X) m seen m' seen' added.
Proof.
  intros s frm cls m ans seen A P E. unfold additional. rewrite (hget_some _ _ _ E). cbn [bind].
  destruct (a_type (rr A) =? QTYPE_SRV) eqn:TS.
  - destruct (ar_addr_spec s frm cls (a_rdname (rr A)) m seen P) as (m2 & s2 & a2 & E2 & G2). exists m2, s2, a2. split; [exact E2|].
    eapply grows_impl; [|exact G2]. intros y Y EY K. left. split; [lia|exact K].
  - destruct (a_type (rr A) =? QTYPE_PTR) eqn:TP; cbn [negb]; [|exists m, seen, []; split; [reflexivity|apply grows_refl]].
    destruct (a_rdname (rr A)) as [n|] eqn:Rn; [|exists m, seen, []; split; [reflexivity|apply grows_refl]].
    destruct (bytes_eqb (a_name (rr A)) DISCO_NAME) eqn:DN; [exists m, seen, []; split; [reflexivity|apply grows_refl]|].
    destruct (additional_loop_spec (mdnsd_get_published s n) s frm cls n m seen P (chain_of_live s n P)) as (m2 & s2 & a2 & E2 & G2).
    exists m2, s2, a2. split; [exact E2|]. eapply grows_impl; [|exact G2]. intros y Y EY K. right. split; [lia|].
    split; [intros Eq; rewrite Eq, bytes_eqb_refl in DN; discriminate|]. exists n. auto.
Qed.

Lemma additionals_spec : forall l s frm cls m seen, pok s -> all_live (hp s) l ->
  exists m' seen' added, additionals s frm cls m l seen = Ok (m', seen') /\
    grows s frm cls (fun _ X => exists a A, In a l /\ hp s a = Some A /\ accompanies s A X) m seen m' seen' added.
Proof.
  induction l as [|x l IH]; intros s frm cls m seen P L.
  - exists m, seen, []. split; [reflexivity|apply grows_refl].
  - apply all_live_cons in L. destruct L as [(X & E) L]. cbn [additionals].
    destruct (additional_spec s frm cls m x seen X P E) as (m1 & s1 & a1 & E1 & G1). rewrite E1. cbn [bind].
    destruct (IH s frm cls m1 s1 P L) as (m2 & s2 & a2 & E2 & G2). exists m2, s2, (a1 ++ a2). split; [exact E2|].
    eapply grows_trans; [eapply grows_impl; [|exact G1]|eapply grows_impl; [|exact G2]].
    + intros y Y EY K. exists x, X. split; [left; reflexivity|auto].
    + intros y Y EY (a & A & I & EA & K). exists a, A. split; [right; exact I|auto].
Qed.

(* ------------------------------------------------------------------ *)
(* A unicast answer *)

Definition uni_calls (cls : Z) (X : mrec) : list mcall :=
  MQd (a_name (rr X)) (a_type (rr X)) cls :: MRr SAn (a_name (rr X)) (a_type (rr X)) cls (a_ttl (rr X)) :: a_copy (rr X).

Lemma out_unicast_spec : forall s qs t frm cls u us X, rinv s qs -> uans s = u :: us -> hp s (u_r u) = Some X ->
  exists s' added, out_unicast (set_uans s us) t frm cls u = Ok (s', uni_calls cls X ++ extras cls (hp s) added) /\
    s' = set_hp (set_uans s us) (hset (hp s) (u_r u) (set_sent X t)) /\ rinv s' qs /\
    grows s frm cls (fun _ Y => accompanies s X Y) (uni_calls cls X) [u_r u] (uni_calls cls X ++ extras cls (hp s) added) (fold_left answered_add added [u_r u]) added.
Proof.
  intros s qs t frm cls u us X H Eu E. unfold out_unicast. cbn [hp set_uans]. rewrite (hget_some _ _ _ E). cbn [bind]. cbv zeta.
  set (s' := set_hp (set_uans s us) (hset (hp s) (u_r u) (set_sent X t))).
  assert (H0 : rinv (set_uans s us) qs).
  { destruct H as [HQ HP HU HA]. split.
    - apply (qok_head s); [exact HQ|reflexivity|reflexivity|intros []; reflexivity].
    - eapply pok_frame; [exact HP|reflexivity|apply hframe_refl].
    - exact HU.
    - intros v I. apply HA. rewrite Eu. right. exact I. }
  assert (H' : rinv s' qs).
  { apply (rinv_set (set_uans s us) qs (u_r u) X); [exact H0|exact E|reflexivity|reflexivity|]. destruct (ri_u _ _ H _ _ E) as [U1 U2 U3 U4 U5 U6 U7]. split; assumption. }
  assert (E' : hp s' (u_r u) = Some (set_sent X t)) by apply hset_same.
  destruct (additional_spec s' frm cls (uni_calls cls X) (u_r u) [u_r u] _ (ri_p _ _ H') E') as (m' & seen' & added & Ea & (Gm & Gs & Gx)).
  fold (uni_calls cls X). rewrite Ea. cbn [bind]. exists s', added.
  assert (Ex : forall a, extras cls (hp s') a = extras cls (hp s) a).
  { intros a. induction a as [|y a IH]; [reflexivity|]. unfold extras. cbn [flat_map]. fold (extras cls (hp s') a). fold (extras cls (hp s) a). rewrite IH. f_equal.
    unfold at_rec, s'. cbn [hp set_hp]. destruct (Nat.eq_dec y (u_r u)) as [->|D]; [rewrite hset_same, E; reflexivity|rewrite hset_other by exact D; reflexivity]. }
  rewrite Ex in Gm. rewrite Gm. split; [reflexivity|]. split; [reflexivity|]. split; [exact H'|]. split; [reflexivity|]. split; [reflexivity|].
  assert (Tr : forall y Y, hp s' y = Some Y -> exists Z, hp s y = Some Z /\ rr Z = rr Y).
  { intros y Y EY. unfold s' in EY. cbn [hp set_hp] in EY. destruct (Nat.eq_dec y (u_r u)) as [->|D].
    - rewrite hset_same in EY. inversion EY; subst. exists X. auto.
    - rewrite hset_other in EY by exact D. exists Y. auto. }
  intros a y b K. destruct (Gx a y b K) as (Y & EY & AY & NI & LE). destruct (Tr y Y EY) as (Z & EZ & RZ). exists Z. split; [exact EZ|].
  rewrite Ex in LE. rewrite RZ. split; [|split; [exact NI|exact LE]].
  unfold accompanies, of_instance, address_of, is_addr in *. rewrite RZ. change (rr (set_sent X t)) with (rr X) in AY.
  destruct AY as [AY|(A1 & A2 & n & A3 & AY)]; [left; exact AY|right]. split; [exact A1|]. split; [exact A2|]. exists n. split; [exact A3|].
  destruct AY as [AY|(z & W & h & B1 & B2)]; [left; exact AY|right]. destruct (Tr z W B1) as (V & EV & RV). exists z, V, h. rewrite RV. auto.
Qed.
