(* A record holds what the calls gave it. *)
From Verif Require Import Base Lemmas Hash HashProofs Wire Rec Qry Out In Api RecInv RecSafe RecOps RecAddr OutSafe OutExtra QryInv QryOps CacheOps QryReg QryLoop InSafe InLoop InResp OutAll OutSpec Shut DaemonInv SpecDaemon SpecLife SpecData FactsCalls FactsItems FactsEvolve FactsIn FactsOut FactsFrame FactsFate FactsLife FactsUni.

Definition same_rrs (X Y : mrec) : Prop := rr Y = rr X.
Lemma publish_rr : forall s t r s', r_publish s t r = Ok s' -> forall x Y, hp s' x = Some Y -> exists X, hp s x = Some X /\ rr Y = rr X.
Proof.
  intros s t r s' E x Y EY. destruct (r_publish_evo same_rrs (fun X => eq_refl) (fun X Y Z (A : rr Y = rr X) (B : rr Z = rr Y) => eq_trans B A) (fun X p => eq_refl) (fun X b => eq_refl) (fun X t => eq_refl) s t r s' E) as [H _].
  exact (H x Y EY).
Qed.
Lemma set_rrs : forall s t r f s', mdnsd_set s t r f = Ok s' -> forall x Y, hp s' x = Some Y -> exists X, hp s x = Some X /\ rr Y = if Nat.eqb x r then f (rr X) else rr X.
Proof.
  intros s t r f s' E x Y EY. unfold mdnsd_set, with_rr in E. apply bind_ok in E as (s1 & E1 & E). apply bind_ok in E1 as (X & EX & E1). injection E1 as <-. apply hget_ok in EX.
  destruct (publish_rr _ _ _ _ E x Y EY) as (X1 & EX1 & Er). cbn [set_hp hp] in EX1. unfold hset in EX1. destruct (Nat.eqb_spec x r) as [->|D].
  - injection EX1 as <-. exists X. auto.
  - exists X1. auto.
Qed.

Lemma set_all_rrs : forall l s t ty i s', ty = QTYPE_A \/ ty = QTYPE_AAAA -> is_zero i = false -> set_all s t l ty i = Ok s' ->
  forall x Y, hp s' x = Some Y -> exists X, hp s x = Some X /\ (In x l -> rr Y = if a_type (rr X) =? ty then (if ty =? QTYPE_A then put_ip i else put_ip6 i) (rr X) else rr X) /\ (rr Y = rr X \/ rr Y = (if ty =? QTYPE_A then put_ip i else put_ip6 i) (rr X) /\ a_type (rr X) = ty).
Proof.
  intros l s t ty i s' Ty Z E. set (f := if ty =? QTYPE_A then put_ip i else put_ip6 i).
  assert (Ff : forall a, f (f a) = f a) by (intros a; unfold f; destruct (ty =? QTYPE_A); reflexivity). assert (Ft : forall a, a_type (f a) = a_type a) by (intros a; unfold f; destruct (ty =? QTYPE_A); reflexivity).
  revert s E. induction l as [|y l IH]; intros s E x Y EY; cbn [set_all] in E.
  - injection E as <-. exists Y. split; [exact EY|]. split; [intros []|auto].
  - apply bind_ok in E as (X0 & EX0 & E). apply hget_ok in EX0. rewrite Z in E. apply bind_ok in E as (s1 & E1 & E). destruct (IH s1 E x Y EY) as (X1 & EX1 & A & B).
    destruct (Z.eqb_spec (a_type (rr X0)) ty) as [Et|Et].
    + assert (S : mdnsd_set s t y f = Ok s1) by (unfold f; destruct (ty =? QTYPE_A); exact E1). destruct (set_rrs _ _ _ _ _ S x X1 EX1) as (X & EX & Er). exists X. split; [exact EX|].
      destruct (Nat.eqb_spec x y) as [->|D].
      * rewrite EX0 in EX. injection EX as <-. rewrite Et, Z.eqb_refl. assert (Ey : rr Y = f (rr X0)); [|auto]. destruct B as [->|[-> _]]; rewrite Er; [reflexivity|apply Ff].
      * rewrite Er in *. split; [|exact B]. intros [->|I]; [contradiction|exact (A I)].
    + injection E1 as <-. exists X1. split; [exact EX1|]. split; [|exact B]. intros [<-|I]; [|exact (A I)]. rewrite EX0 in EX1. injection EX1 as <-. destruct (Z.eqb_spec (a_type (rr X0)) ty); [contradiction|].
      destruct B as [B|[_ B]]; [exact B|contradiction].
Qed.
Lemma set_all_zero : forall l s t ty i s', is_zero i = true -> set_all s t l ty i = Ok s' -> forall x Y, hp s' x = Some Y -> exists X, hp s x = Some X /\ (rr Y = rr X \/ rr Y = set_ttl (rr X) 0).
Proof.
  induction l as [|y l IH]; intros s t ty i s' Z E x Y EY; cbn [set_all] in E; [injection E as <-; eauto|]. apply bind_ok in E as (X0 & EX0 & E). apply hget_ok in EX0. rewrite Z in E. apply bind_ok in E as (s1 & E1 & E).
  destruct (IH s1 t ty i s' Z E x Y EY) as (X1 & EX1 & A). destruct (a_type (rr X0) =? ty); injection E1 as <-; [|eauto]. cbn [set_head set_hp hp] in EX1. unfold hset in EX1. destruct (Nat.eqb_spec x y) as [->|D]; [|eauto].
  injection EX1 as <-. exists X0. split; [exact EX0|]. right. destruct A as [-> | ->]; reflexivity.
Qed.

Lemma withdrawn_refl : forall a, same_or_withdrawn a a.
Proof. intros a. repeat split; auto. Qed.
Lemma withdrawn_ttl : forall a, same_or_withdrawn (set_ttl a 0) a.
Proof. intros a. repeat split; auto. Qed.
Lemma withdrawn_trans : forall a b c, same_or_withdrawn a b -> same_or_withdrawn b c -> same_or_withdrawn a c.
Proof.
  intros a b c (A1 & A2 & A3 & A4 & A5 & A6 & A7 & A8 & A9 & A) (B1 & B2 & B3 & B4 & B5 & B6 & B7 & B8 & B9 & B). repeat (split; [congruence|]). destruct A as [-> | ->]; [exact B|auto].
Qed.
Lemma given_withdrawn : forall r a b ev, same_or_withdrawn a b -> same_or_withdrawn (given r a ev) (given r b ev).
Proof.
  intros r a b ev (A1 & A2 & A3 & A4 & A5 & A6 & A7 & A8 & A9 & A). unfold given. rewrite A2.
  destruct (ev_call ev); try (repeat (split; [assumption|]); assumption); try (destruct (Nat.eqb _ _); cbn; repeat (split; [first [assumption|reflexivity]|]); exact A); destruct (_ && _); repeat (split; [first [assumption|reflexivity]|]); exact A.
Qed.

Lemma step_given : forall d e o d' x r X Y, reach d -> legal d e o -> step d e o = Ok (d', x) -> record d r X -> record d' r Y -> same_or_withdrawn (rr Y) (given r (rr X) (mkevent d e o x d')).
Proof.
  intros d e o d' x r X Y K L E EX EY. destruct (reach_dinv d K) as (qs & H & C). unfold record in *. assert (Lt : (r < fresh (R d))%nat) by (apply (qk_fresh _ _ (ri_q _ _ H)); congruence).
  assert (S : forall f y, on_recs d (mdnsd_set (R d) (now d) y f) = Ok (d', x) -> rr Y = if Nat.eqb y r then f (rr X) else rr X).
  { intros f y Es. unfold on_recs in Es. apply bind_ok in Es as (s & Es & Er). injection Er as <- _. destruct (set_rrs _ _ _ _ _ Es r Y EY) as (X' & EX' & ->). rewrite EX in EX'. injection EX' as <-. rewrite Nat.eqb_sym. reflexivity. }
  assert (Kp : ~ touches d o r -> same_or_withdrawn (rr Y) (rr X)).
  { intros Nt. destruct (event_cases d e o d' x qs K H L E) as (qs' & H' & [(-> & m & n & S0 & B & -> & O & [F0 F] & _)|[(-> & Z)|(N1 & N2 & [_ O])]]).
    - specialize (F r X EX). rewrite EY in F. assert (Er : rr Y = rr X); [|rewrite Er; apply withdrawn_refl]. inversion F; subst; try assumption; match goal with L : like X Y |- _ => destruct L; assumption end.
    - rewrite Z in EY. discriminate.
    - specialize (O r Lt). rewrite EX, EY in O. destruct (fo_rr _ _ _ _ _ _ O Nt) as [-> | ->]; [apply withdrawn_refl|apply withdrawn_ttl]. }
  assert (P : In r (concat (pub (R d)))) by (apply (pk_live _ (ri_p _ _ H)); congruence).
  destruct o; cbn [given ev_call ev_before]; try (apply Kp; exact (fun f => f)); cbn [step] in E.
  - rewrite (S _ _ E). destruct (Nat.eqb _ _); apply withdrawn_refl.
  - rewrite (S _ _ E). destruct (Nat.eqb _ _); apply withdrawn_refl.
  - rewrite (S _ _ E). destruct (Nat.eqb _ _); apply withdrawn_refl.
  - rewrite (S _ _ E). destruct (Nat.eqb _ _); apply withdrawn_refl.
  - rewrite (S _ _ E). destruct (Nat.eqb _ _); apply withdrawn_refl.
  - destruct (bytes_eqb (d_addr d) i); [injection E as <- _; rewrite EX in EY; injection EY as <-; rewrite andb_false_r; apply withdrawn_refl|]. apply bind_ok in E as (s & Es & E). injection E as <- _. cbn [with_addr with_R R] in EY.
    change (forallb (fun c => c =? 0) i) with (is_zero i). rewrite andb_true_r. destruct (is_zero i) eqn:Z; cbn [negb]; [rewrite andb_false_r|rewrite andb_true_r].
    + destruct (set_all_zero _ _ _ _ _ _ Z Es r Y EY) as (X' & EX' & A). rewrite EX in EX'. injection EX' as <-. destruct A as [-> | ->]; [apply withdrawn_refl|apply withdrawn_ttl].
    + destruct (set_all_rrs _ _ _ _ _ _ (or_introl eq_refl) Z Es r Y EY) as (X' & EX' & A & _). rewrite EX in EX'. injection EX' as <-. rewrite (A P). change (a_type (rr X) =? 1) with (a_type (rr X) =? QTYPE_A). destruct (_ =? QTYPE_A); apply withdrawn_refl.
  - destruct (bytes_eqb (d_addr6 d) i); [injection E as <- _; rewrite EX in EY; injection EY as <-; rewrite andb_false_r; apply withdrawn_refl|]. apply bind_ok in E as (s & Es & E). injection E as <- _. cbn [with_addr with_R R] in EY.
    change (forallb (fun c => c =? 0) i) with (is_zero i). rewrite andb_true_r. destruct (is_zero i) eqn:Z; cbn [negb]; [rewrite andb_false_r|rewrite andb_true_r].
    + destruct (set_all_zero _ _ _ _ _ _ Z Es r Y EY) as (X' & EX' & A). rewrite EX in EX'. injection EX' as <-. destruct A as [-> | ->]; [apply withdrawn_refl|apply withdrawn_ttl].
    + destruct (set_all_rrs _ _ _ _ _ _ (or_intror eq_refl) Z Es r Y EY) as (X' & EX' & A & _). rewrite EX in EX'. injection EX' as <-. rewrite (A P). change (a_type (rr X) =? 28) with (a_type (rr X) =? QTYPE_AAAA). destruct (_ =? QTYPE_AAAA); apply withdrawn_refl.
Qed.

Lemma step_made : forall d e o d' x r h ty ttl X, reach d -> legal d e o -> step d e o = Ok (d', x) -> makes (mkevent d e o x d') r h ty ttl -> record d' r X -> rr X = fresh_data h ty ttl.
Proof.
  intros d e o d' x r h ty ttl X K L E [Ex M] EX. cbn [ev_call ev_result] in *. subst x. unfold record in EX. destruct M as [-> |(cb & ->)]; cbn [step] in E; apply on_new_ok in E as (s & r0 & Es & -> & Er); injection Er as <-.
  - assert (A : mdnsd_shared (R d) h ty ttl = (s, r)) by congruence. clear Es. unfold mdnsd_shared in A. cbv zeta in A. injection A as <- <-. cbn [with_R R hp] in EX. rewrite hset_same in EX. injection EX as <-. reflexivity.
  - unfold mdnsd_unique, mdnsd_shared in Es. apply bind_ok in Es as (X0 & EX0 & Es). cbv zeta in Es. apply bind_ok in Es as (s2 & E2 & Es). apply bind_ok in Es as (s3 & E3 & Es). injection Es as <- <-. cbn [with_R R set_tprobe hp] in EX.
    destruct (r_push_evo same_rrs (fun X => eq_refl) (fun X p => eq_refl) _ _ _ _ E3) as [A3 _].
    destruct (r_remove_lists_evo same_rrs (fun X => eq_refl) (fun X Y Z (A : rr Y = rr X) (B : rr Z = rr Y) => eq_trans B A) (fun X p => eq_refl) _ _ _ _ E2) as [A2 _].
    destruct (A3 _ _ EX) as (X3 & EX3 & R3). destruct (A2 _ _ EX3) as (X2 & EX2 & R2). cbn [set_hp hp] in EX2. rewrite hset_same in EX2. injection EX2 as <-. apply hget_ok in EX0. cbn [hp] in EX0. rewrite hset_same in EX0. injection EX0 as <-.
    unfold same_rrs in *. rewrite R3, R2. reflexivity.
Qed.

Lemma last_cases : forall (A : Type) (l : list A) x l1 y l2, l ++ [x] = l1 ++ y :: l2 -> (l2 = [] /\ y = x /\ l1 = l) \/ exists l3, l2 = l3 ++ [x] /\ l = l1 ++ y :: l3.
Proof.
  intros A l x l1 y l2 E. destruct l2 as [|z l3 _] using rev_ind.
  - left. apply app_inj_tail in E as [-> ->]. auto.
  - right. exists l3. rewrite app_comm_cons, app_assoc in E. apply app_inj_tail in E as [-> ->]. auto.
Qed.

Lemma data_given : forall t0 cls frm l d l1 ev l2 r h ty ttl X, 0 <= fst t0 -> history (mdnsd_new t0 cls frm) l d -> l = l1 ++ ev :: l2 -> makes ev r h ty ttl -> record d r X ->
  same_or_withdrawn (rr X) (fold_left (given r) l2 (fresh_data h ty ttl)).
Proof.
  intros t0 cls frm l d l1 ev l2 r h ty ttl X N Hh El M EX. revert l1 l2 El.
  assert (G : forall l1 l2, l = l1 ++ ev :: l2 -> (r < fresh (R d))%nat /\ forall X, record d r X -> same_or_withdrawn (rr X) (fold_left (given r) l2 (fresh_data h ty ttl))).
  { clear X EX. induction Hh as [|l d e o x d' Hh IH L E]; intros l1 l2 El; [destruct l1; discriminate|]. pose proof (history_reach _ _ _ (reach_new t0 cls frm N) Hh) as K.
    destruct (step_fresh d e o d' x K L E) as [F1 F2]. destruct (last_cases _ _ _ _ _ _ El) as [(-> & -> & ->)|(l3 & -> & ->)].
    - split; [apply F2; exact (proj1 M)|]. intros X EX. cbn [fold_left]. rewrite (step_made d e o d' x r h ty ttl X K L E M EX). apply withdrawn_refl.
    - destruct (IH l1 l3 eq_refl) as [Lt IH']. split; [lia|]. intros Y EY. destruct (step_identity d e o d' x r Y K L E Lt EY) as (X & EX & _). rewrite fold_left_app. cbn [fold_left].
      eapply withdrawn_trans; [exact (step_given d e o d' x r X Y K L E EX EY)|]. apply given_withdrawn. apply IH'. exact EX. }
  intros l1 l2 El. apply (proj2 (G l1 l2 El)). exact EX.
Qed.

(* The fields that _a_copy looks at before the one the call sets are empty. *)
Definition clean (o : op) (a : answer) : Prop :=
  match o with
  | OSetRaw _ _ => a_rdname a = None
  | OSetIp _ _ => a_rdname a = None /\ a_rdata a = None
  | OSetIp6 _ _ => a_rdname a = None /\ a_rdata a = None /\ is_zero (a_ip a) = true
  | _ => True
  end.
Lemma given_type : forall r a ev, a_type (given r a ev) = a_type a.
Proof. intros r a ev. unfold given. destruct (ev_call ev); try reflexivity; try (destruct (Nat.eqb _ _); reflexivity); destruct (_ && _); reflexivity. Qed.
Lemma given_clean : forall o r ty a ev, a_type a = ty -> suits o r ty -> (resets (ev_call ev) r ty -> same_setter (ev_call ev) o) -> clean o a -> clean o (given r a ev).
Proof.
  intros o r ty a ev Et Su Sm C. unfold given.
  destruct (ev_call ev) eqn:Ec; try exact C; cbn [resets] in Sm.
  1-5: match goal with Sm : _ -> _, C : _ |- clean _ (if Nat.eqb ?x ?y then _ else _) => destruct (Nat.eqb_spec x y) as [Er|Er]; [specialize (Sm Er)|exact C] end; destruct o; cbn [same_setter suits] in *; try contradiction; auto.
  - destruct (Z.eqb_spec (a_type a) 1) as [E1|E1]; cbn [andb]; [|exact C]. rewrite Et in E1. specialize (Sm E1). destruct (_ && _); [|exact C]. destruct o; cbn [same_setter] in *; try contradiction; exact C.
  - destruct (Z.eqb_spec (a_type a) 28) as [E1|E1]; cbn [andb]; [|exact C]. rewrite Et in E1. specialize (Sm E1). destruct (_ && _); [|exact C]. destruct o; cbn [same_setter] in *; try contradiction; exact C.
Qed.
Lemma givens_clean : forall o r ty l a, a_type a = ty -> suits o r ty -> (forall ev, In ev l -> resets (ev_call ev) r ty -> same_setter (ev_call ev) o) -> clean o a ->
  a_type (fold_left (given r) l a) = ty /\ clean o (fold_left (given r) l a).
Proof.
  intros o r ty l. induction l as [|ev l IH]; intros a Et Su Sm C; [auto|]. cbn [fold_left]. apply IH; [rewrite given_type; exact Et|exact Su|intros ev' I; apply Sm; right; exact I|].
  eapply given_clean; [exact Et|exact Su|apply Sm; left; reflexivity|exact C].
Qed.
Lemma given_id : forall r ty a ev, a_type a = ty -> ~ resets (ev_call ev) r ty -> given r a ev = a.
Proof.
  intros r ty a ev Et Nr. unfold given. destruct (ev_call ev); try reflexivity; cbn [resets] in Nr; try (match goal with |- context [Nat.eqb ?x r] => destruct (Nat.eqb_spec x r) as [Er|Er]; [contradiction|reflexivity] end).
  - destruct (Z.eqb_spec (a_type a) 1) as [E1|E1]; [congruence|reflexivity].
  - destruct (Z.eqb_spec (a_type a) 28) as [E1|E1]; [congruence|reflexivity].
Qed.
Lemma givens_id : forall r ty l a, a_type a = ty -> (forall ev, In ev l -> ~ resets (ev_call ev) r ty) -> fold_left (given r) l a = a.
Proof.
  intros r ty l. induction l as [|ev l IH]; intros a Et Nr; [reflexivity|]. cbn [fold_left]. rewrite (given_id r ty a ev Et); [apply IH; [exact Et|]; intros ev' I|]; apply Nr; [right; exact I|left; reflexivity].
Qed.
Lemma given_name : forall r a ev, a_name (given r a ev) = a_name a /\ a_ttl (given r a ev) = a_ttl a.
Proof. intros r a ev. unfold given. destruct (ev_call ev); auto; try (destruct (Nat.eqb _ _); auto); destruct (_ && _); auto. Qed.
Lemma givens_name : forall r l a, a_name (fold_left (given r) l a) = a_name a /\ a_ttl (fold_left (given r) l a) = a_ttl a.
Proof. intros r l. induction l as [|ev l IH]; intros a; [auto|]. cbn [fold_left]. destruct (IH (given r a ev)) as [-> ->]. apply given_name. Qed.

Lemma copy_withdrawn : forall a b, same_or_withdrawn a b -> a_copy a = a_copy b.
Proof. intros a b (A1 & A2 & A3 & A4 & A5 & A6 & A7 & A8 & A9 & A). unfold a_copy. rewrite A2, A3, A4, A5, A6, A7, A8, A9. reflexivity. Qed.
Lemma copy_said : forall o r ty a ev, ev_call ev = o -> a_type a = ty -> suits o r ty -> clean o a -> a_copy (given r a ev) = said o.
Proof.
  intros o r ty a ev Ec Et Su C. unfold given. rewrite Ec. destruct o; cbn [suits] in Su; try contradiction.
  - destruct Su as [-> Nt]. rewrite Nat.eqb_refl. unfold a_copy. cbn [a_type a_rdname a_rdata clean] in *. rewrite C. destruct (Z.eqb_spec (a_type a) QTYPE_SRV) as [E|E]; [unfold QTYPE_SRV in E; congruence|reflexivity].
  - destruct Su as [-> Nt]. rewrite Nat.eqb_refl. unfold a_copy. cbn [a_type a_rdname a_rdata clean] in *. destruct (Z.eqb_spec (a_type a) QTYPE_SRV) as [E|E]; [unfold QTYPE_SRV in E; congruence|reflexivity].
  - destruct Su as (-> & Ty & Z). rewrite Nat.eqb_refl. unfold a_copy. cbn [a_type a_rdname a_rdata a_ip clean] in *. destruct C as [-> ->]. rewrite Et, Ty. cbn [Z.eqb QTYPE_SRV]. change (forallb (fun c => c =? 0) i) with (is_zero i) in Z. rewrite Z. reflexivity.
  - destruct Su as (-> & Ty & Z). rewrite Nat.eqb_refl. unfold a_copy. cbn [a_type a_rdname a_rdata a_ip a_ip6 clean] in *. destruct C as (-> & -> & ->). rewrite Et, Ty. change (forallb (fun c => c =? 0) i) with (is_zero i) in Z. rewrite Z. reflexivity.
  - destruct Su as (-> & Ty). rewrite Nat.eqb_refl. unfold a_copy. cbn [a_type a_rdname a_prio a_weight a_port]. rewrite Et, Ty. reflexivity.
Qed.

Lemma data_said : forall t0 cls frm l1 ev l2 ev' l3 d r h ty ttl X, 0 <= fst t0 -> history (mdnsd_new t0 cls frm) (l1 ++ ev :: l2 ++ ev' :: l3) d -> makes ev r h ty ttl ->
  suits (ev_call ev') r ty -> (forall e, In e l2 -> resets (ev_call e) r ty -> same_setter (ev_call e) (ev_call ev')) -> (forall e, In e l3 -> ~ resets (ev_call e) r ty) -> record d r X ->
  (a_ttl (rr X) = ttl \/ a_ttl (rr X) = 0) /\ forall sec cl, shown sec cl X = IRecord sec h ty cl (a_ttl (rr X)) (said (ev_call ev')).
Proof.
  intros t0 cls frm l1 ev l2 ev' l3 d r h ty ttl X N Hh M Su Sm Nr EX. pose proof (data_given t0 cls frm _ d l1 ev _ r h ty ttl X N Hh eq_refl M EX) as G.
  rewrite fold_left_app in G. cbn [fold_left] in G. destruct (givens_clean (ev_call ev') r ty l2 (fresh_data h ty ttl) eq_refl Su Sm) as [Gt Gc].
  { destruct (ev_call ev'); cbn [clean]; auto. }
  set (a := fold_left (given r) l2 (fresh_data h ty ttl)) in *. rewrite (givens_id r ty l3) in G; [|rewrite given_type; exact Gt|exact Nr].
  pose proof (copy_withdrawn _ _ G) as Cp. rewrite (copy_said _ r ty a ev' eq_refl Gt Su Gc) in Cp. destruct G as (G1 & G2 & _ & _ & _ & _ & _ & _ & _ & G3).
  destruct (given_name r a ev') as [E1 E2]. destruct (givens_name r l2 (fresh_data h ty ttl)) as [E3 E4]. fold a in E3, E4. rewrite E2, E4 in G3. rewrite E1, E3 in G1. rewrite given_type, Gt in G2. split; [exact G3|].
  intros sec cl. unfold shown. rewrite G1, G2, Cp. reflexivity.
Qed.
