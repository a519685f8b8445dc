(* What address maintenance does to the records. *)
From Verif Require Import Base Lemmas Hash HashProofs Wire Rec Qry Out In Api RecInv RecSafe RecOps RecAddr DaemonInv SpecDaemon SpecAddr FactsCalls FactsEvolve.

Definition of_rec (host : list Z) (ty : Z) (X : mrec) : Prop := a_name (rr X) = host /\ a_type (rr X) = ty.
Definition staleb (host : list Z) (ty : Z) (l : list (list Z)) (X : mrec) : bool :=
  (a_type (rr X) =? ty) && bytes_eqb (a_name (rr X)) host && negb (existsb (bytes_eqb (addr_of ty (rr X))) l).
Lemma stale_iff : forall host ty l X, staleb host ty l X = true <-> of_rec host ty X /\ ~ In (addr_of ty (rr X)) l.
Proof.
  intros host ty l X. unfold staleb, of_rec. rewrite !andb_true_iff, negb_true_iff, bytes_eqb_eq, Z.eqb_eq.
  assert (E : existsb (bytes_eqb (addr_of ty (rr X))) l = false <-> ~ In (addr_of ty (rr X)) l).
  { rewrite <- not_true_iff_false, existsb_exists. split; intros K; [intros I; apply K; exists (addr_of ty (rr X)); split; [exact I|apply bytes_eqb_refl]|].
    intros (x & I & B). apply K. apply bytes_eqb_eq in B. congruence. }
  rewrite E. tauto.
Qed.
Lemma nolink_eq : forall (a b : option mrec), option_map nolink a = option_map nolink b -> forall X, a = Some X -> exists Y, b = Some Y /\ nolink Y = nolink X.
Proof.
  intros a b E X ->. destruct b as [Y|]; [|discriminate]. exists Y. split; [reflexivity|]. symmetry. exact (f_equal (fun o => match o with Some y => y | None => nolink X end) E).
Qed.
Lemma nolink_eq' : forall (a b : option mrec), option_map nolink a = option_map nolink b -> forall Y, b = Some Y -> exists X, a = Some X /\ nolink Y = nolink X.
Proof. intros a b E Y EY. symmetry in E. destruct (nolink_eq _ _ E Y EY) as (X & EX & N). exists X. split; [exact EX|]. symmetry. exact N. Qed.
Lemma stale_nolink : forall host ty l X Y, nolink Y = nolink X -> staleb host ty l Y = staleb host ty l X.
Proof. intros host ty l X Y N. apply nolink_fields in N as (E & _). unfold staleb. rewrite E. reflexivity. Qed.

(* ------------------------------------------------------------------ *)
Lemma add_addrs_spec : forall addrs s qs t host ty ttl, (ty = QTYPE_A \/ ty = QTYPE_AAAA) -> rinv s qs ->
  exists s' qs', add_addrs s t host ty ttl addrs = Ok s' /\ rinv s' qs' /\ (fresh s <= fresh s')%nat /\
    (forall x, (x < fresh s)%nat -> option_map nolink (hp s x) = option_map nolink (hp s' x)) /\
    (forall x Y, (fresh s <= x)%nat -> hp s' x = Some Y -> of_rec host ty Y /\ a_ttl (rr Y) = ttl /\ unique Y = 0 /\ In (addr_of ty (rr Y)) addrs /\
       forall z Z, z <> x -> hp s' z = Some Z -> of_rec host ty Z -> addr_of ty (rr Z) <> addr_of ty (rr Y)) /\
    (forall i, In i addrs -> exists x X, hp s' x = Some X /\ of_rec host ty X /\ addr_of ty (rr X) = i) /\
    ((forall i, In i addrs -> exists x X, hp s x = Some X /\ of_rec host ty X /\ addr_of ty (rr X) = i) -> s' = s).
Proof.
  induction addrs as [|i l IH]; intros s qs t host ty ttl Ty H; cbn [add_addrs].
  { exists s, qs. split; [reflexivity|]. split; [exact H|]. split; [lia|]. split; [reflexivity|]. split; [|split; [intros i []|reflexivity]].
    intros x Y L E. exfalso. pose proof (qk_fresh _ _ (ri_q _ _ H) x ltac:(congruence)). lia. }
  destruct (has_addr_ok (hp s) (chain_of s host) host ty i (chain_of_live s host (ri_p _ _ H))) as (b & Eb & Sb). rewrite Eb. cbn [bind].
  assert (Sb' : b = true <-> exists x X, hp s x = Some X /\ of_rec host ty X /\ addr_of ty (rr X) = i).
  { rewrite Sb. split.
    - intros (x & X & _ & EX & T & N & A). exists x, X. unfold of_rec. auto.
    - intros (x & X & EX & [N T] & A). exists x, X. split; [rewrite <- N; apply pok_in; [apply (ri_p _ _ H)|exact EX]|]. auto. }
  clear Sb. destruct b.
  - cbn [bind]. destruct (IH s qs t host ty ttl Ty H) as (s' & qs' & E' & H' & F & Old & New & All & Same). exists s', qs'. split; [exact E'|]. split; [exact H'|]. split; [exact F|]. split; [exact Old|]. split; [|split].
    + intros x Y L EY. destruct (New x Y L EY) as (A & B & U & C & D). repeat (split; [assumption|]). split; [right; exact C|exact D].
    + intros j [<-|I]; [|apply All; exact I]. destruct (proj1 Sb' eq_refl) as (x & X & EX & O & A). pose proof (qk_fresh _ _ (ri_q _ _ H) x ltac:(congruence)) as Lx.
      destruct (nolink_eq _ _ (Old x Lx) X EX) as (Y & EY & N). apply nolink_fields in N as (Er & _). exists x, Y. unfold of_rec in *. rewrite Er. auto.
    + intros K. apply Same. intros j I. apply K. right. exact I.
  - destruct (mdnsd_shared s host ty ttl) as [s1 r] eqn:E1. destruct (mdnsd_shared_inv _ _ _ _ _ _ _ H E1) as (H1 & -> & F1 & G1 & O1 & C1).
    fold (set_addr s1 t ty (fresh s) i). rewrite set_addr_eq.
    destruct (mdnsd_set_inv s1 qs t (fresh s) _ _ H1 (keeps_addr ty i) G1) as (s2 & qs2 & Y0 & E2 & H2 & B2 & EY0 & RY0 & UY0 & F2 & _). rewrite E2. cbn [bind].
    destruct (IH s2 qs2 t host ty ttl Ty H2) as (s' & qs' & E' & H' & F & Old & New & All & Same). exists s', qs'. split; [exact E'|]. split; [exact H'|]. split; [lia|].
    assert (Old2 : forall x, (x < fresh s)%nat -> option_map nolink (hp s x) = option_map nolink (hp s2 x)).
    { intros x L. rewrite <- (B2 x ltac:(lia)), O1 by lia. reflexivity. }
    assert (Y0' : of_rec host ty Y0 /\ a_ttl (rr Y0) = ttl /\ unique Y0 = 0 /\ addr_of ty (rr Y0) = i).
    { rewrite RY0, UY0. cbn [new_rec rr unique]. split; [|split; [|split; [reflexivity|apply addr_put; exact Ty]]]; [|destruct Ty as [->| ->]; reflexivity]. unfold of_rec. rewrite RY0. destruct Ty as [->| ->]; split; reflexivity. }
    destruct (nolink_eq _ _ (Old (fresh s) ltac:(lia)) Y0 EY0) as (Y1 & EY1 & N1). pose proof N1 as N1'. apply nolink_fields in N1' as (Er1 & Eu1 & _).
    assert (Y1' : of_rec host ty Y1 /\ a_ttl (rr Y1) = ttl /\ unique Y1 = 0 /\ addr_of ty (rr Y1) = i) by (unfold of_rec in *; rewrite Er1, Eu1; exact Y0').
    destruct Y1' as (P1 & P2 & P3 & P4). split; [|split; [|split]].
    + intros x L. rewrite (Old2 x L). apply Old. lia.
    + intros x Y L EY. destruct (Nat.eq_dec x (fresh s)) as [->|D].
      * rewrite EY1 in EY. injection EY as <-. repeat (split; [assumption|]). split; [left; symmetry; exact P4|]. intros z Z Dz EZ OZ A. rewrite P4 in A.
        destruct (lt_dec z (fresh s)) as [Lz|Lz].
        -- destruct (nolink_eq' _ _ (eq_trans (Old2 z Lz) (Old z ltac:(lia))) Z EZ) as (X & EX & NX). apply nolink_fields in NX as (Erx & _). assert (T : false = true); [|discriminate]. apply Sb'. exists z, X. unfold of_rec in *. rewrite <- Erx. auto.
        -- destruct (New z Z ltac:(lia) EZ) as (_ & _ & _ & _ & U). apply (U (fresh s) Y1); auto. congruence.
      * destruct (New x Y ltac:(lia) EY) as (A & B & U & C & D'). repeat (split; [assumption|]). split; [right; exact C|exact D'].
    + intros j [<-|I]; [exists (fresh s), Y1; auto|apply All; exact I].
    + intros K. exfalso. assert (T : false = true); [|discriminate]. apply Sb'. apply K. left. reflexivity.
Qed.

Lemma drop_addrs_spec : forall l s qs t host ty addrs, rinv s qs -> all_live (hp s) l -> NoDup l ->
  exists s' qs', drop_addrs s t l host ty addrs = Ok s' /\ rinv s' qs' /\ fresh s' = fresh s /\
    forall x, match hp s x with
      | None => hp s' x = None
      | Some X => if existsb (Nat.eqb x) l && staleb host ty addrs X
                  then if probes X then hp s' x = None else exists Y, hp s' x = Some Y /\ nolink Y = nolink (gone X)
                  else exists Y, hp s' x = Some Y /\ nolink Y = nolink X
      end.
Proof.
  induction l as [|x l IH]; intros s qs t host ty addrs H L N; cbn [drop_addrs].
  { exists s, qs. split; [reflexivity|]. split; [exact H|]. split; [reflexivity|]. intros x. destruct (hp s x) as [X|]; [cbn [existsb andb]; eauto|reflexivity]. }
  apply all_live_cons in L. destruct L as [[X E] L]. apply NoDup_cons_iff in N as [N1 N2]. rewrite (hget_some _ _ _ E). cbn [bind]. fold (staleb host ty addrs X). destruct (staleb host ty addrs X) eqn:St.
  - destruct (mdnsd_done_inv s qs t x X H E) as (s1 & qs1 & E1 & H1 & B & F1 & D1 & D2). rewrite E1. cbn [bind].
    assert (L1 : all_live (hp s1) l) by (intros y I; rewrite <- (hbut_live x _ _ y B); [apply L; exact I|intros ->; contradiction]).
    destruct (IH s1 qs1 t host ty addrs H1 L1 N2) as (s' & qs' & E' & H' & F & K). exists s', qs'. split; [exact E'|]. split; [exact H'|]. split; [congruence|]. intros y. specialize (K y). cbn [existsb].
    destruct (Nat.eqb_spec y x) as [->|D]; cbn [orb].
    + rewrite E, St. cbn [andb]. assert (Nx : existsb (Nat.eqb x) l = false).
      { apply not_true_iff_false. intros T. apply existsb_exists in T as (z & I & T). apply Nat.eqb_eq in T. congruence. }
      rewrite Nx in K. cbn [andb] in K. destruct (probes X) eqn:P; [rewrite (D1 eq_refl) in K; exact K|]. destruct (D2 eq_refl) as (Y & EY & NY). rewrite EY in K. destruct K as (Z & EZ & NZ). exists Z. split; [exact EZ|congruence].
    + pose proof (B y D) as By. destruct (hp s y) as [Y|] eqn:EY; [|destruct (hp s1 y); [discriminate|exact K]]. destruct (nolink_eq _ _ By Y eq_refl) as (Y1 & EY1 & NY1). rewrite EY1 in K.
      rewrite (stale_nolink _ _ _ _ _ NY1) in K. pose proof NY1 as NF. apply nolink_fields in NF as (Er & Eu & _). assert (Ep : probes Y1 = probes Y) by (unfold probes; rewrite Eu; reflexivity). rewrite Ep in K.
      destruct (existsb (Nat.eqb y) l && staleb host ty addrs Y); [destruct (probes Y); [exact K|]|]; destruct K as (Z & EZ & NZ); exists Z; (split; [exact EZ|]); [|congruence].
      rewrite NZ. unfold RecOps.gone, nolink, set_rr, set_link. destruct Y as [y1 y2 y3 y4 y5 y6 y7], Y1 as [z1 z2 z3 z4 z5 z6 z7]. unfold nolink, set_link in NY1. cbn [rr unique modified tries conflict last_sent link] in *. injection NY1 as -> -> -> -> -> ->. reflexivity.
  - cbn [bind]. destruct (IH s qs t host ty addrs H L N2) as (s' & qs' & E' & H' & F & K). exists s', qs'. split; [exact E'|]. split; [exact H'|]. split; [exact F|]. intros y. specialize (K y). cbn [existsb].
    destruct (Nat.eqb_spec y x) as [->|D]; cbn [orb]; [|exact K]. rewrite E, St in *. rewrite andb_false_r in K. exact K.
Qed.

(* ------------------------------------------------------------------ *)
(* The whole call, record by record *)
Record updated (host : list Z) (ty : Z) (addrs : list (list Z)) (h h' : heap) : Prop := mkupdated {
  up_old : forall x X, h x = Some X -> if staleb host ty addrs X then if probes X then h' x = None else exists Y, h' x = Some Y /\ nolink Y = nolink (RecOps.gone X)
                                    else exists Y, h' x = Some Y /\ nolink Y = nolink X;
  up_new : forall x Y, h x = None -> h' x = Some Y -> of_rec host ty Y /\ a_ttl (rr Y) <> 0 /\ unique Y = 0 /\ In (addr_of ty (rr Y)) addrs /\
             (forall z Z, h z = Some Z -> of_rec host ty Z -> addr_of ty (rr Z) <> addr_of ty (rr Y)) /\
             (forall z Z, z <> x -> h z = None -> h' z = Some Z -> addr_of ty (rr Z) <> addr_of ty (rr Y));
  up_all : forall i, In i addrs -> exists x Y, h' x = Some Y /\ of_rec host ty Y /\ addr_of ty (rr Y) = i;
  up_none : (forall i, In i addrs -> exists x X, h x = Some X /\ of_rec host ty X /\ addr_of ty (rr X) = i) -> forall x, h x = None -> h' x = None
}.

Lemma update_spec : forall s qs t host ty addrs, (ty = QTYPE_A \/ ty = QTYPE_AAAA) -> rinv s qs ->
  exists s' qs', update_addresses s t host ty addrs = Ok s' /\ rinv s' qs' /\ updated host ty addrs (hp s) (hp s').
Proof.
  intros s qs t host ty addrs Ty H. unfold update_addresses. destruct (mdnsd_find_ok s host ty (ri_p _ _ H)) as (o & Eo & S). rewrite Eo. cbn [bind].
  assert (T : exists ttl, match o with None => Ok 120 | Some r => X <- hget (hp s) r;; Ok (if a_ttl (rr X) =? 0 then 120 else a_ttl (rr X)) end = Ok ttl /\ ttl <> 0).
  { destruct o as [x|]; [|exists 120; split; [reflexivity|lia]]. destruct S as (X & E & _). rewrite (hget_some _ _ _ E). cbn [bind]. eexists. split; [reflexivity|]. destruct (a_ttl (rr X) =? 0) eqn:Z; lia. }
  destruct T as (ttl & Et & Nt). rewrite Et. cbn [bind]. destruct (add_addrs_spec addrs s qs t host ty ttl Ty H) as (s1 & qs1 & E1 & H1 & F1 & Old & New & All & Same). rewrite E1. cbn [bind].
  destruct (drop_addrs_spec (chain_of s1 host) s1 qs1 t host ty addrs H1 (chain_of_live s1 host (ri_p _ _ H1)) (pok_chain_nodup s1 host (ri_p _ _ H1))) as (s' & qs' & E' & H' & F' & K).
  exists s', qs'. split; [exact E'|]. split; [exact H'|].
  assert (K' : forall x X, hp s1 x = Some X -> if staleb host ty addrs X then if probes X then hp s' x = None else exists Y, hp s' x = Some Y /\ nolink Y = nolink (RecOps.gone X) else exists Y, hp s' x = Some Y /\ nolink Y = nolink X).
  { intros x X EX. specialize (K x). rewrite EX in K. destruct (staleb host ty addrs X) eqn:St; [|rewrite andb_false_r in K; exact K].
    assert (I : existsb (Nat.eqb x) (chain_of s1 host) = true).
    { apply existsb_exists. exists x. split; [|apply Nat.eqb_refl]. apply stale_iff in St as [[N _] _]. rewrite <- N. apply pok_in; [apply (ri_p _ _ H1)|exact EX]. }
    rewrite I in K. exact K. }
  assert (Fr : forall x X, hp s x = Some X -> (x < fresh s)%nat) by (intros x X EX; apply (qk_fresh _ _ (ri_q _ _ H)); congruence).
  assert (Nw : forall x Y, hp s x = None -> hp s' x = Some Y -> (fresh s <= x)%nat /\ exists Y1, hp s1 x = Some Y1 /\ nolink Y = nolink Y1).
  { intros x Y EX EY. destruct (hp s1 x) as [Y1|] eqn:EY1; [|specialize (K x); rewrite EY1 in K; congruence].
    assert (Lx : (fresh s <= x)%nat) by (destruct (le_lt_dec (fresh s) x) as [L|L]; [exact L|]; specialize (Old x L); rewrite EX, EY1 in Old; discriminate). split; [exact Lx|]. exists Y1. split; [reflexivity|].
    destruct (New x Y1 Lx EY1) as (O1 & _ & _ & I1 & _). pose proof (K' x Y1 EY1) as K1. destruct (staleb host ty addrs Y1) eqn:St; [apply stale_iff in St as [_ St]; contradiction|]. destruct K1 as (Z & EZ & NZ). congruence. }
  split.
  - intros x X EX. destruct (nolink_eq _ _ (Old x (Fr x X EX)) X EX) as (X1 & EX1 & N1). pose proof (K' x X1 EX1) as K1. rewrite (stale_nolink _ _ _ _ _ N1) in K1.
    pose proof N1 as NF. apply nolink_fields in NF as (Er & Eu & _). assert (Ep : probes X1 = probes X) by (unfold probes; rewrite Eu; reflexivity). rewrite Ep in K1.
    destruct (staleb host ty addrs X); [destruct (probes X); [exact K1|]|]; destruct K1 as (Y & EY & NY); exists Y; (split; [exact EY|]); [|congruence].
    rewrite NY. unfold RecOps.gone, nolink, set_rr, set_link. destruct X as [y1 y2 y3 y4 y5 y6 y7], X1 as [z1 z2 z3 z4 z5 z6 z7]. unfold nolink, set_link in N1. cbn [rr unique modified tries conflict last_sent link] in *. injection N1 as -> -> -> -> -> ->. reflexivity.
  - intros x Y EX EY. destruct (Nw x Y EX EY) as (Lx & Y1 & EY1 & NY). destruct (New x Y1 Lx EY1) as (O1 & T1 & U1 & I1 & D1). pose proof NY as NF. apply nolink_fields in NF as (Er & Eu & _). unfold of_rec in *. rewrite Er, Eu.
    split; [exact O1|]. split; [lia|]. split; [exact U1|]. split; [exact I1|]. split.
    + intros z Z EZ OZ. destruct (nolink_eq _ _ (Old z (Fr z Z EZ)) Z EZ) as (Z1 & EZ1 & NZ). apply nolink_fields in NZ as (Erz & _). rewrite <- Erz. apply (D1 z Z1); [specialize (Fr z Z EZ); lia|exact EZ1|]. rewrite Erz. exact OZ.
    + intros z Z Dz EZ0 EZ. destruct (Nw z Z EZ0 EZ) as (Lz & Z1 & EZ1 & NZ). apply nolink_fields in NZ as (Erz & _). rewrite Erz. destruct (New z Z1 Lz EZ1) as (Oz & _). apply (D1 z Z1); assumption.
  - intros i I. destruct (All i I) as (x & X1 & EX1 & O1 & A1). pose proof (K' x X1 EX1) as K1. destruct (staleb host ty addrs X1) eqn:St; [apply stale_iff in St as [_ St]; rewrite A1 in St; contradiction|].
    destruct K1 as (Y & EY & NY). apply nolink_fields in NY as (Er & _). exists x, Y. unfold of_rec in *. rewrite Er. auto.
  - intros Ha x EX. specialize (K x). rewrite (Same Ha), EX in K. exact K.
Qed.

(* ------------------------------------------------------------------ *)
Lemma unchanged_of : forall X Y, nolink Y = nolink X -> unchanged X Y.
Proof. intros X Y N. apply nolink_fields in N as (A & B & C & D & E & F). unfold unchanged. auto 7. Qed.

Lemma addresses_step : forall d e o d' x host ty l, reach d -> sets_addresses o host ty l -> step d e o = Ok (d', x) -> (ty = QTYPE_A \/ ty = QTYPE_AAAA) /\ updated host ty l (hp (R d)) (hp (R d')).
Proof.
  intros d e o d' x host ty l K S E. destruct (reach_dinv d K) as (qs & H & _).
  assert (Ty : ty = QTYPE_A \/ ty = QTYPE_AAAA) by (destruct S as [[_ ->]|[_ ->]]; auto). split; [exact Ty|].
  assert (G : on_recs d (update_addresses (R d) (now d) host ty l) = Ok (d', x)) by (destruct S as [[-> ->]|[-> ->]]; exact E).
  destruct (update_spec (R d) qs (now d) host ty l Ty H) as (s' & qs' & E' & _ & U). unfold on_recs in G. rewrite E' in G. injection G as <- _. exact U.
Qed.

Lemma gone_ttl : forall X Y, nolink Y = nolink (RecOps.gone X) -> a_ttl (rr Y) = 0.
Proof. intros X Y N. apply nolink_fields in N as (E & _). rewrite E. reflexivity. Qed.

(* What is offered afterwards *)
Definition hoffers (h : heap) (host : list Z) (ty : Z) (ip : list Z) : Prop := exists r X, h r = Some X /\ of_rec host ty X /\ a_ttl (rr X) <> 0 /\ addr_of ty (rr X) = ip.
Lemma updated_offers : forall host ty l h h', updated host ty l h h' -> (forall r X, h r = Some X -> of_rec host ty X -> a_ttl (rr X) <> 0) -> forall ip, hoffers h' host ty ip <-> In ip l.
Proof.
  intros host ty l h h' U P ip. split.
  - intros (r & Y & EY & O & T & A). destruct (h r) as [X|] eqn:EX; [|destruct (up_new _ _ _ _ _ U r Y EX EY) as (_ & _ & _ & I & _); rewrite A in I; exact I].
    pose proof (up_old _ _ _ _ _ U r X EX) as K. destruct (staleb host ty l X) eqn:St.
    + destruct (probes X); [congruence|]. destruct K as (Z & EZ & NZ). rewrite EY in EZ. injection EZ as <-. apply gone_ttl in NZ. contradiction.
    + destruct K as (Z & EZ & NZ). rewrite EY in EZ. injection EZ as <-. apply nolink_fields in NZ as (Er & _). rewrite Er in A. unfold of_rec in O. rewrite Er in O.
      destruct (in_dec (list_eq_dec Z.eq_dec) ip l) as [I|I]; [exact I|]. exfalso. assert (T2 : staleb host ty l X = true) by (apply stale_iff; split; [exact O|rewrite A; exact I]). congruence.
  - intros I. destruct (up_all _ _ _ _ _ U ip I) as (r & Y & EY & O & A). exists r, Y. split; [exact EY|]. split; [exact O|]. split; [|exact A].
    destruct (h r) as [X|] eqn:EX; [|apply (up_new _ _ _ _ _ U r Y EX EY)]. pose proof (up_old _ _ _ _ _ U r X EX) as K. destruct (staleb host ty l X) eqn:St.
    + destruct (probes X); [congruence|]. destruct K as (Z & EZ & NZ). rewrite EY in EZ. injection EZ as <-. exfalso. apply stale_iff in St as [_ St]. apply nolink_fields in NZ as (Er & _). rewrite Er in A.
      apply St. assert (A2 : addr_of ty (rr X) = ip) by (rewrite <- A; unfold addr_of; destruct (ty =? QTYPE_A); reflexivity). rewrite A2. exact I.
    + destruct K as (Z & EZ & NZ). rewrite EY in EZ. injection EZ as <-. apply nolink_fields in NZ as (Er & _). rewrite Er. unfold of_rec in O. rewrite Er in O. exact (P r X EX O).
Qed.
(* Records of other names or types, and those that are wanted *)
Lemma updated_keeps : forall host ty l h h' r X, updated host ty l h h' -> h r = Some X -> ~ (of_rec host ty X /\ ~ In (addr_of ty (rr X)) l) -> exists Y, h' r = Some Y /\ nolink Y = nolink X.
Proof.
  intros host ty l h h' r X U EX N. pose proof (up_old _ _ _ _ _ U r X EX) as K. destruct (staleb host ty l X) eqn:St; [|exact K]. apply stale_iff in St. contradiction.
Qed.

Lemma addresses_exact : forall d e o d' x host ty l, reach d -> sets_addresses o host ty l -> step d e o = Ok (d', x) -> none_withdrawn d host ty -> forall ip, offers d' host ty ip <-> In ip l.
Proof.
  intros d e o d' x host ty l K S E P ip. destruct (addresses_step d e o d' x host ty l K S E) as [Ty U]. rewrite <- (updated_offers host ty l _ _ U).
  - unfold offers, hoffers, of_host, of_rec, record, withdrawn, address, addr_of. split; intros (r & X & A); exists r, X; tauto.
  - intros r X EX [O1 O2]. apply (P r X). unfold of_host, record. auto.
Qed.

Lemma addresses_once : forall d e o d' x host ty l, reach d -> sets_addresses o host ty l -> step d e o = Ok (d', x) -> once d host ty -> once d' host ty.
Proof.
  intros d e o d' x host ty l K S E P. destruct (addresses_step d e o d' x host ty l K S E) as [Ty U]. unfold once, of_host, record, withdrawn.
  assert (G : forall r Y, hp (R d') r = Some Y -> a_ttl (rr Y) <> 0 -> forall X, hp (R d) r = Some X -> rr Y = rr X).
  { intros r Y EY T X EX. pose proof (up_old _ _ _ _ _ U r X EX) as Q. destruct (staleb host ty l X); [destruct (probes X); [congruence|]|]; destruct Q as (Z & EZ & NZ); rewrite EY in EZ; injection EZ as <-.
    - apply gone_ttl in NZ. contradiction.
    - apply nolink_fields in NZ as (Er & _). exact Er. }
  intros r X r' X' (EX & N & T) (EX' & N' & T') W W' A. destruct (Nat.eq_dec r r') as [|D]; [assumption|]. exfalso. change (address ty X) with (addr_of ty (rr X)) in A. change (address ty X') with (addr_of ty (rr X')) in A.
  destruct (hp (R d) r) as [Z|] eqn:EZ; destruct (hp (R d) r') as [Z'|] eqn:EZ'.
  - pose proof (G r X EX W Z EZ) as G1. pose proof (G r' X' EX' W' Z' EZ') as G2. rewrite G1 in *. rewrite G2 in *. apply D. apply (P r Z r' Z'); unfold of_host, record, withdrawn; auto.
  - destruct (up_new _ _ _ _ _ U r' X' EZ' EX') as (_ & _ & _ & _ & Q & _). rewrite (G r X EX W Z EZ) in *. apply (Q r Z EZ); [split; assumption|congruence].
  - destruct (up_new _ _ _ _ _ U r X EZ EX) as (_ & _ & _ & _ & Q & _). rewrite (G r' X' EX' W' Z' EZ') in *. apply (Q r' Z' EZ'); [split; assumption|congruence].
  - destruct (up_new _ _ _ _ _ U r X EZ EX) as (_ & _ & _ & _ & _ & Q). apply (Q r' X'); auto.
Qed.

Lemma addresses_others : forall d e o d' x host ty l, reach d -> sets_addresses o host ty l -> step d e o = Ok (d', x) ->
  (forall r X, record d r X -> ~ (a_name (rr X) = host /\ a_type (rr X) = ty /\ ~ In (address ty X) l) -> exists Y, record d' r Y /\ unchanged X Y) /\
  (forall r Y, record d' r Y -> (forall X, ~ record d r X) -> of_host d' host ty r Y /\ ~ withdrawn Y /\ unique Y = 0 /\ In (address ty Y) l).
Proof.
  intros d e o d' x host ty l K S E. destruct (addresses_step d e o d' x host ty l K S E) as [Ty U]. split.
  - intros r X EX N. destruct (updated_keeps host ty l _ _ r X U EX) as (Y & EY & NY); [unfold of_rec; intros [[A B] C]; apply N; auto|]. exists Y. split; [exact EY|apply unchanged_of; exact NY].
  - intros r Y EY N. assert (Z : hp (R d) r = None) by (destruct (hp (R d) r) as [X|] eqn:EX; [destruct (N X EX)|reflexivity]). destruct (up_new _ _ _ _ _ U r Y Z EY) as ([A1 A2] & B & C & D & _). unfold of_host, withdrawn. auto 6.
Qed.

Lemma addresses_again : forall d e o d1 x1 e2 d2 x2 host ty l, reach d -> legal d e o -> sets_addresses o host ty l -> step d e o = Ok (d1, x1) -> step d1 e2 o = Ok (d2, x2) ->
  (forall r X, record d1 r X -> exists Y, record d2 r Y /\ unchanged X Y) /\ (forall r Y, record d2 r Y -> exists X, record d1 r X).
Proof.
  intros d e o d1 x1 e2 d2 x2 host ty l K L S E1 E2. destruct (addresses_step d e o d1 x1 host ty l K S E1) as [Ty U1]. destruct (addresses_step d1 e2 o d2 x2 host ty l (reach_step _ _ _ _ _ K L E1) S E2) as [_ U2].
  assert (St : forall r X, hp (R d1) r = Some X -> staleb host ty l X = true -> probes X = false /\ a_ttl (rr X) = 0).
  { intros r X EX St. destruct (hp (R d) r) as [Z|] eqn:EZ.
    - pose proof (up_old _ _ _ _ _ U1 r Z EZ) as Q. destruct (staleb host ty l Z) eqn:Sz.
      + destruct (probes Z) eqn:P; [congruence|]. destruct Q as (Y & EY & NY). rewrite EX in EY. injection EY as <-. split; [|eapply gone_ttl; exact NY]. apply nolink_fields in NY as (_ & Eu & _). unfold probes in *. rewrite Eu. exact P.
      + destruct Q as (Y & EY & NY). rewrite EX in EY. injection EY as <-. rewrite (stale_nolink _ _ _ _ _ NY) in St. congruence.
    - destruct (up_new _ _ _ _ _ U1 r X EZ EX) as (_ & _ & _ & I & _). apply stale_iff in St as [_ St]. contradiction. }
  split.
  - intros r X EX. pose proof (up_old _ _ _ _ _ U2 r X EX) as Q. destruct (staleb host ty l X) eqn:Sx.
    + destruct (St r X EX Sx) as [P T]. rewrite P in Q. destruct Q as (Y & EY & NY). exists Y. split; [exact EY|]. apply unchanged_of. rewrite NY. unfold RecOps.gone, nolink, set_rr, set_link, set_ttl. destruct X as [a u m t c ls lk]. cbn [rr] in T |- *. destruct a as [a1 a2 a3 a4 a5 a6 a7 a8 a9 a10]. cbn [a_ttl] in T. subst a3. reflexivity.
    + destruct Q as (Y & EY & NY). exists Y. split; [exact EY|apply unchanged_of; exact NY].
  - intros r Y EY. destruct (hp (R d1) r) as [X|] eqn:EX; [exists X; exact EX|]. unfold record in EY. rewrite (up_none _ _ _ _ _ U2 (up_all _ _ _ _ _ U1) r EX) in EY. discriminate.
Qed.

(* ------------------------------------------------------------------ *)
(* mdnsd_set_interface_addresses: every host with an address record *)
Lemma host_names_spec : forall h l acc, all_live h l -> NoDup acc -> exists n, host_names h l acc = Ok n /\ NoDup n /\
  forall host, In host n <-> In host acc \/ exists r X, In r l /\ h r = Some X /\ a_name (rr X) = host /\ (a_type (rr X) = QTYPE_A \/ a_type (rr X) = QTYPE_AAAA).
Proof.
  intros h l. induction l as [|x t IH]; intros acc L N; cbn [host_names].
  { exists acc. split; [reflexivity|]. split; [exact N|]. intros host. split; [auto|]. intros [K|(r & X & [] & _)]. exact K. }
  apply all_live_cons in L as [[X E] L]. rewrite (hget_some _ _ _ E). cbn [bind]. cbv zeta. destruct ((a_type (rr X) =? QTYPE_A) || (a_type (rr X) =? QTYPE_AAAA)) eqn:T; cbn [andb].
  - destruct (existsb (bytes_eqb (a_name (rr X))) acc) eqn:B; cbn [negb].
    + destruct (IH acc L N) as (n & En & Nn & Sn). exists n. split; [exact En|]. split; [exact Nn|]. intros host. rewrite Sn. split.
      * intros [K|(r & Y & I & K)]; [auto|]. right. exists r, Y. split; [right; exact I|exact K].
      * intros [K|(r & Y & [<-|I] & EY & K)]; [auto| |right; exists r, Y; auto]. rewrite E in EY. injection EY as <-. left. apply existsb_exists in B as (z & Iz & Bz). apply bytes_eqb_eq in Bz. destruct K as [K _]. congruence.
    + assert (B' : ~ In (a_name (rr X)) acc) by (intros I; assert (C : existsb (bytes_eqb (a_name (rr X))) acc = true); [apply existsb_exists; exists (a_name (rr X)); split; [exact I|apply bytes_eqb_refl]|congruence]).
      assert (N' : NoDup (acc ++ [a_name (rr X)])) by (apply NoDup_Add with (a := a_name (rr X)) (l := acc); [rewrite <- (app_nil_r acc) at 1; apply Add_app|split; assumption]).
      destruct (IH (acc ++ [a_name (rr X)]) L N') as (n & En & Nn & Sn). exists n. split; [exact En|]. split; [exact Nn|]. intros host. rewrite Sn, in_app_iff. split.
      * intros [[K|[<-|[]]]|(r & Y & I & K)]; [auto| |].
        -- right. exists x, X. split; [left; reflexivity|]. split; [exact E|]. split; [reflexivity|]. apply orb_true_iff in T as [T|T]; apply Z.eqb_eq in T; auto.
        -- right. exists r, Y. split; [right; exact I|exact K].
      * intros [K|(r & Y & [<-|I] & EY & K)]; [auto| |right; exists r, Y; auto]. rewrite E in EY. injection EY as <-. destruct K as [<- _]. left. right. left. reflexivity.
  - destruct (IH acc L N) as (n & En & Nn & Sn). exists n. split; [exact En|]. split; [exact Nn|]. intros host. rewrite Sn. apply orb_false_iff in T as [T1 T2]. apply Z.eqb_neq in T1. apply Z.eqb_neq in T2. split.
    + intros [K|(r & Y & I & K)]; [auto|]. right. exists r, Y. split; [right; exact I|exact K].
    + intros [K|(r & Y & [<-|I] & EY & K)]; [auto| |right; exists r, Y; auto]. rewrite E in EY. injection EY as <-. destruct K as [_ [K|K]]; contradiction.
Qed.

(* Records of (host, ty), as far as anyone outside sees *)
Definition same_part (h h' : heap) (host : list Z) (ty : Z) : Prop :=
  (forall r X, h r = Some X -> of_rec host ty X -> exists Y, h' r = Some Y /\ nolink Y = nolink X) /\
  (forall r Y, h' r = Some Y -> of_rec host ty Y -> exists X, h r = Some X /\ nolink Y = nolink X).
Lemma same_refl : forall h host ty, same_part h h host ty.
Proof. intros h host ty. split; eauto. Qed.
Lemma same_trans : forall h1 h2 h3 host ty, same_part h1 h2 host ty -> same_part h2 h3 host ty -> same_part h1 h3 host ty.
Proof.
  intros h1 h2 h3 host ty [A B] [C D]. split.
  - intros r X EX O. destruct (A r X EX O) as (Y & EY & NY). pose proof NY as NF. apply nolink_fields in NF as (Er & _). destruct (C r Y EY) as (Z & EZ & NZ); [unfold of_rec in *; rewrite Er; exact O|]. exists Z. split; [exact EZ|congruence].
  - intros r Z EZ O. destruct (D r Z EZ O) as (Y & EY & NY). pose proof NY as NF. apply nolink_fields in NF as (Er & _). destruct (B r Y EY) as (X & EX & NX); [unfold of_rec in *; rewrite <- Er; exact O|]. exists X. split; [exact EX|congruence].
Qed.
Lemma same_offers : forall h h' host ty, same_part h h' host ty -> forall ip, hoffers h host ty ip <-> hoffers h' host ty ip.
Proof.
  intros h h' host ty [A B] ip. split; intros (r & X & EX & O & T & I).
  - destruct (A r X EX O) as (Y & EY & NY). apply nolink_fields in NY as (Er & _). exists r, Y. unfold of_rec in *. rewrite Er. auto.
  - destruct (B r X EX O) as (Y & EY & NY). apply nolink_fields in NY as (Er & _). exists r, Y. unfold of_rec in *. rewrite <- Er. auto.
Qed.
Lemma updated_same : forall host ty l h h' host' ty', updated host ty l h h' -> ~ (host' = host /\ ty' = ty) -> same_part h h' host' ty'.
Proof.
  intros host ty l h h' host' ty' U D. split.
  - intros r X EX [N T]. apply (updated_keeps host ty l h h' r X U EX). intros [[N' T'] _]. apply D. split; congruence.
  - intros r Y EY [N T]. destruct (h r) as [X|] eqn:EX; [|destruct (up_new _ _ _ _ _ U r Y EX EY) as ([N' T'] & _); destruct D; split; congruence].
    exists X. split; [reflexivity|]. pose proof (up_old _ _ _ _ _ U r X EX) as K. destruct (staleb host ty l X) eqn:St.
    + exfalso. destruct (probes X); [congruence|]. destruct K as (Z & EZ & NZ). rewrite EY in EZ. injection EZ as <-. apply nolink_fields in NZ as (Er & _). rewrite Er in N, T. apply stale_iff in St as [[N' T'] _]. apply D. split; [rewrite <- N'|rewrite <- T']; symmetry; assumption.
    + destruct K as (Z & EZ & NZ). congruence.
Qed.

Lemma set_hosts_spec : forall hosts s qs t v4 v6, rinv s qs -> NoDup hosts ->
  exists s' qs', set_hosts s t hosts v4 v6 = Ok s' /\ rinv s' qs' /\
    (forall host ty, ~ (In host hosts /\ (ty = QTYPE_A \/ ty = QTYPE_AAAA)) -> same_part (hp s) (hp s') host ty) /\
    (forall host, In host hosts -> (forall r X, hp s r = Some X -> of_rec host QTYPE_A X -> a_ttl (rr X) <> 0) -> forall ip, hoffers (hp s') host QTYPE_A ip <-> In ip v4) /\
    (forall host, In host hosts -> (forall r X, hp s r = Some X -> of_rec host QTYPE_AAAA X -> a_ttl (rr X) <> 0) -> forall ip, hoffers (hp s') host QTYPE_AAAA ip <-> In ip v6).
Proof.
  induction hosts as [|n l IH]; intros s qs t v4 v6 H N; cbn [set_hosts].
  { exists s, qs. split; [reflexivity|]. split; [exact H|]. split; [intros; apply same_refl|]. split; intros host []. }
  apply NoDup_cons_iff in N as [N1 N2].
  destruct (update_spec s qs t n QTYPE_A v4 ltac:(auto) H) as (s1 & qs1 & E1 & H1 & U1). rewrite E1. cbn [bind].
  destruct (update_spec s1 qs1 t n QTYPE_AAAA v6 ltac:(auto) H1) as (s2 & qs2 & E2 & H2 & U2). rewrite E2. cbn [bind].
  destruct (IH s2 qs2 t v4 v6 H2 N2) as (s' & qs' & E' & H' & Oth & G4 & G6). exists s', qs'. split; [exact E'|]. split; [exact H'|].
  assert (NA : QTYPE_A <> QTYPE_AAAA) by (unfold QTYPE_A, QTYPE_AAAA; lia).
  assert (Keep : forall host ty, ~ (host = n /\ (ty = QTYPE_A \/ ty = QTYPE_AAAA)) -> same_part (hp s) (hp s2) host ty).
  { intros host ty D. eapply same_trans; [eapply updated_same; [exact U1|]|eapply updated_same; [exact U2|]]; intros [A B]; apply D; auto. }
  assert (Nw : forall host ty, host <> n -> (forall r X, hp s r = Some X -> of_rec host ty X -> a_ttl (rr X) <> 0) -> forall r X, hp s2 r = Some X -> of_rec host ty X -> a_ttl (rr X) <> 0).
  { intros host ty D P r X EX O. destruct (proj2 (Keep host ty ltac:(intros [? _]; contradiction)) r X EX O) as (Y & EY & NY). apply nolink_fields in NY as (Er & _). rewrite Er. apply (P r Y EY). unfold of_rec in *. rewrite <- Er. exact O. }
  split; [|split].
  - intros host ty D. eapply same_trans; [apply Keep|apply Oth]; intros [A B]; apply D; (split; [|exact B]); [left; congruence|right; exact A].
  - intros host [<-|I] P ip.
    + rewrite <- (same_offers _ _ n QTYPE_A (Oth n QTYPE_A ltac:(intros [? _]; contradiction)) ip).
      rewrite <- (same_offers _ _ n QTYPE_A (updated_same _ _ _ _ _ n QTYPE_A U2 ltac:(intros [_ ?]; contradiction)) ip). apply (updated_offers n QTYPE_A v4 (hp s) (hp s1) U1 P).
    + apply (G4 host I (Nw host QTYPE_A ltac:(intros ->; contradiction) P) ip).
  - intros host [<-|I] P ip.
    + rewrite <- (same_offers _ _ n QTYPE_AAAA (Oth n QTYPE_AAAA ltac:(intros [? _]; contradiction)) ip). apply (updated_offers n QTYPE_AAAA v6 (hp s1) (hp s2) U2).
      intros r X EX O. destruct (proj2 (updated_same _ _ _ _ _ n QTYPE_AAAA U1 ltac:(intros [_ Q]; congruence)) r X EX O) as (Y & EY & NY). apply nolink_fields in NY as (Er & _). rewrite Er. apply (P r Y EY). unfold of_rec in *. rewrite <- Er. exact O.
    + apply (G6 host I (Nw host QTYPE_AAAA ltac:(intros ->; contradiction) P) ip).
Qed.

Lemma interface_ips : forall l ifname fam ip, In ip (map if_ip (filter (fun i => if_family i =? fam) (filter (fun i => bytes_eqb (if_name i) ifname) l))) <-> on_interface l ifname fam ip.
Proof.
  intros l ifname fam ip. unfold on_interface. rewrite in_map_iff. split.
  - intros (i & E & I). rewrite !filter_In, Z.eqb_eq, bytes_eqb_eq in I. exists i. tauto.
  - intros (i & I & N & F & E). exists i. rewrite !filter_In, Z.eqb_eq, bytes_eqb_eq. tauto.
Qed.

Lemma interface_addresses : forall d e ifname l d' x, reach d -> e_ifs e = Some l -> step d e (OSetIfaddrs ifname) = Ok (d', x) ->
  (forall host, (exists r X, of_host d host QTYPE_A r X \/ of_host d host QTYPE_AAAA r X) ->
     (none_withdrawn d host QTYPE_A -> forall ip, offers d' host QTYPE_A ip <-> on_interface l ifname AF_INET ip) /\
     (none_withdrawn d host QTYPE_AAAA -> forall ip, offers d' host QTYPE_AAAA ip <-> on_interface l ifname AF_INET6 ip)) /\
  (forall r X, record d r X -> a_type (rr X) <> QTYPE_A -> a_type (rr X) <> QTYPE_AAAA -> exists Y, record d' r Y /\ unchanged X Y) /\
  (forall r Y, record d' r Y -> (forall X, ~ record d r X) -> exists r0 X0, record d r0 X0 /\ a_name (rr X0) = a_name (rr Y) /\ (a_type (rr X0) = QTYPE_A \/ a_type (rr X0) = QTYPE_AAAA)).
Proof.
  intros d e ifname l d' x K El E. destruct (reach_dinv d K) as (qs & H & _). cbn [step] in E. rewrite El in E. unfold on_recs, set_interface_addresses in E. cbv zeta in E.
  destruct (host_names_spec (hp (R d)) (concat (pub (R d))) [] (pub_live _ (ri_p _ _ H)) (NoDup_nil _)) as (hosts & Eh & Nh & Sh). rewrite Eh in E. cbn [bind] in E.
  match type of E with context [set_hosts _ _ _ ?a ?b] => destruct (set_hosts_spec hosts (R d) qs (now d) a b H Nh) as (s' & qs' & Es & H' & Oth & G4 & G6) end. rewrite Es in E. cbn [bind] in E. injection E as <- _.
  assert (Hh : forall host, In host hosts <-> exists r X, record d r X /\ a_name (rr X) = host /\ (a_type (rr X) = QTYPE_A \/ a_type (rr X) = QTYPE_AAAA)).
  { intros host. rewrite Sh. split.
    - intros [[]|(r & X & _ & Q)]. exists r, X. exact Q.
    - intros (r & X & EX & Q). right. exists r, X. split; [|split; [exact EX|exact Q]]. apply (pk_live _ (ri_p _ _ H)). unfold record in EX. congruence. }
  assert (Off : forall d1 host ty ip, offers d1 host ty ip <-> hoffers (hp (R d1)) host ty ip).
  { intros d1 host ty ip. unfold offers, hoffers, of_host, of_rec, record, withdrawn, address, addr_of. split; intros (r & X & A); exists r, X; tauto. }
  assert (Nw : forall host ty, none_withdrawn d host ty -> forall r X, hp (R d) r = Some X -> of_rec host ty X -> a_ttl (rr X) <> 0).
  { intros host ty P r X EX [A B]. apply (P r X). unfold of_host, record. auto. }
  split; [|split].
  - intros host (r & X & O). assert (I : In host hosts) by (apply Hh; exists r, X; destruct O as [(A & B & C)|(A & B & C)]; auto). split; intros P ip; rewrite Off, <- interface_ips; [exact (G4 host I (Nw _ _ P) ip)|exact (G6 host I (Nw _ _ P) ip)].
  - intros r X EX N4 N6. destruct (proj1 (Oth (a_name (rr X)) (a_type (rr X)) ltac:(intros [_ [?|?]]; contradiction)) r X EX (conj eq_refl eq_refl)) as (Y & EY & NY). exists Y. split; [exact EY|apply unchanged_of; exact NY].
  - intros r Y EY N. apply Hh. destruct (in_dec (list_eq_dec Z.eq_dec) (a_name (rr Y)) hosts) as [I|I]; [exact I|]. exfalso.
    destruct (proj2 (Oth (a_name (rr Y)) (a_type (rr Y)) ltac:(intros [? _]; contradiction)) r Y EY (conj eq_refl eq_refl)) as (X & EX & _). exact (N X EX).
Qed.

Lemma addresses_stale : forall d e o d' x host ty l r X, reach d -> sets_addresses o host ty l -> step d e o = Ok (d', x) -> of_host d host ty r X -> ~ In (address ty X) l ->
  (in_probing X /\ forall Y, ~ record d' r Y) \/ (~ in_probing X /\ exists Y, record d' r Y /\ withdrawn Y).
Proof.
  intros d e o d' x host ty l r X K S E (EX & N & T) I. destruct (addresses_step d e o d' x host ty l K S E) as [Ty U]. pose proof (up_old _ _ _ _ _ U r X EX) as Q.
  assert (St : staleb host ty l X = true) by (apply stale_iff; split; [split; assumption|exact I]). rewrite St in Q. unfold in_probing. assert (P : probes X = true <-> 1 <= unique X < 5) by (destruct (reach_dinv d K) as (qs & H & _); rewrite (probes_iff X ltac:(apply (ri_u _ _ H r X EX))); lia).
  destruct (probes X).
  - left. split; [apply P; reflexivity|]. intros Y EY. unfold record in EY. congruence.
  - right. split; [intros C; apply P in C; discriminate|]. destruct Q as (Y & EY & NY). exists Y. split; [exact EY|]. eapply gone_ttl. exact NY.
Qed.
