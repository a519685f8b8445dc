(* Lookups, address maintenance and records_clear: no undefined behaviour, and
   the invariant is preserved. *)
From Verif Require Import Base Lemmas Hash HashProofs Wire Rec RecInv RecSafe RecOps.

Definition all_live (h : heap) (l : list nat) : Prop := forall x, In x l -> h x <> None.

Lemma all_live_cons : forall h x l, all_live h (x :: l) -> (exists X, h x = Some X) /\ all_live h l.
Proof.
  intros h x l H. split.
  - destruct (h x) as [X|] eqn:E; [eauto|]. exfalso. apply (H x); [left; reflexivity|exact E].
  - intros y I. apply H. right. exact I.
Qed.

Lemma chain_of_live : forall s n, pok s -> all_live (hp s) (chain_of s n).
Proof. intros s n H x I. destruct (pok_chain_live s n x H I) as (X & E & _). congruence. Qed.

Lemma pub_live : forall s, pok s -> all_live (hp s) (concat (pub s)).
Proof. intros s H x I. apply (pk_live _ H). exact I. Qed.

(* ------------------------------------------------------------------ *)
(* Lookups *)

Lemma find_rec_ok : forall h l host type, all_live h l ->
  exists o, find_rec h l host type = Ok o /\
    match o with
    | Some x => In x l /\ exists X, h x = Some X /\ match_rec host type (rr X) = true
    | None => forall x X, In x l -> h x = Some X -> match_rec host type (rr X) = false
    end.
Proof.
  intros h l host type. induction l as [|x t IH]; intros L.
  - exists None. split; [reflexivity|]. intros x X [].
  - apply all_live_cons in L. destruct L as [[X E] L]. cbn [find_rec]. rewrite (hget_some _ _ _ E). cbn [bind].
    destruct (match_rec host type (rr X)) eqn:M.
    + exists (Some x). split; [reflexivity|]. split; [left; reflexivity|]. eauto.
    + destruct (IH L) as (o & Eo & S). exists o. split; [exact Eo|]. destruct o as [y|].
      * destruct S as [I S]. split; [right; exact I|exact S].
      * intros y Y [<-|I] EY; [congruence|]. eapply S; eauto.
Qed.

Lemma find_exact_ok : forall h l name type, all_live h l ->
  exists o, find_exact h l name type = Ok o /\
    match o with
    | Some x => In x l /\ exists X, h x = Some X /\ a_type (rr X) = type /\ a_name (rr X) = name
    | None => forall x X, In x l -> h x = Some X -> a_type (rr X) = type -> a_name (rr X) = name -> False
    end.
Proof.
  intros h l name type. induction l as [|x t IH]; intros L.
  - exists None. split; [reflexivity|]. intros x X [].
  - apply all_live_cons in L. destruct L as [[X E] L]. cbn [find_exact]. rewrite (hget_some _ _ _ E). cbn [bind].
    destruct ((a_type (rr X) =? type) && bytes_eqb (a_name (rr X)) name) eqn:M.
    + exists (Some x). split; [reflexivity|]. split; [left; reflexivity|]. exists X. split; [exact E|].
      apply andb_prop in M. destruct M as [M1 M2]. apply bytes_eqb_eq in M2. split; [lia|exact M2].
    + destruct (IH L) as (o & Eo & S). exists o. split; [exact Eo|]. destruct o as [y|].
      * destruct S as [I S]. split; [right; exact I|exact S].
      * intros y Y [<-|I] EY T N; [|eapply S; eauto]. replace Y with X in * by congruence.
        rewrite T, N, Z.eqb_refl, bytes_eqb_refl in M. discriminate.
Qed.

Lemma tail_after_in : forall r l x, In x (tail_after r l) -> In x l.
Proof.
  intros r l. induction l as [|y t IH]; intros x H; cbn [tail_after] in H; [destruct H|].
  destruct (Nat.eqb y r); right; auto.
Qed.

Lemma r_next_ok : forall s r host type, pok s -> (forall x, r = Some x -> hp s x <> None) ->
  exists o, r_next s r host type = Ok o /\
    (forall y, o = Some y -> exists Y, hp s y = Some Y /\ match_rec host type (rr Y) = true).
Proof.
  intros s r host type H L. unfold r_next. destruct r as [x|].
  - destruct (hp s x) as [X|] eqn:E; [|exfalso; apply (L x eq_refl); exact E]. rewrite (hget_some _ _ _ E). cbn [bind].
    destruct (find_rec_ok (hp s) (tail_after x (chain_of s (a_name (rr X)))) host type) as (o & Eo & S).
    { intros y I. apply (chain_of_live s (a_name (rr X)) H). eapply tail_after_in; eauto. }
    exists o. split; [exact Eo|]. intros y ->. destruct S as [_ S]. exact S.
  - destruct (find_rec_ok (hp s) (chain_of s host) host type (chain_of_live s host H)) as (o & Eo & S).
    exists o. split; [exact Eo|]. intros y ->. destruct S as [_ S]. exact S.
Qed.

Lemma mdnsd_find_ok : forall s name type, pok s ->
  exists o, mdnsd_find s name type = Ok o /\
    match o with
    | Some x => exists X, hp s x = Some X /\ a_type (rr X) = type /\ a_name (rr X) = name
    | None => forall x X, hp s x = Some X -> a_type (rr X) = type -> a_name (rr X) = name -> False
    end.
Proof.
  intros s name type H. unfold mdnsd_find, mdnsd_get_published.
  destruct (find_exact_ok (hp s) (chain_of s name) name type (chain_of_live s name H)) as (o & Eo & S).
  exists o. split; [exact Eo|]. destruct o as [x|]; [apply S|].
  intros x X E T N. apply (S x X); auto. rewrite <- N. apply pok_in; assumption.
Qed.

Lemma has_addr_ok : forall h l host type i, all_live h l ->
  exists b, has_addr h l host type i = Ok b /\
    (b = true <-> exists x X, In x l /\ h x = Some X /\ a_type (rr X) = type /\ a_name (rr X) = host /\ addr_of type (rr X) = i).
Proof.
  intros h l host type i. induction l as [|x t IH]; intros L.
  - exists false. split; [reflexivity|]. split; [discriminate|]. intros (x & X & [] & _).
  - apply all_live_cons in L. destruct L as [[X E] L]. cbn [has_addr]. rewrite (hget_some _ _ _ E). cbn [bind].
    destruct ((a_type (rr X) =? type) && bytes_eqb (a_name (rr X)) host && bytes_eqb (addr_of type (rr X)) i) eqn:M.
    + exists true. split; [reflexivity|]. split; [|auto]. intros _. exists x, X.
      apply andb_prop in M. destruct M as [M M3]. apply andb_prop in M. destruct M as [M1 M2].
      apply bytes_eqb_eq in M2. apply bytes_eqb_eq in M3. repeat split; auto; [left; reflexivity|lia].
    + destruct (IH L) as (b & Eb & S). exists b. split; [exact Eb|]. rewrite S. split.
      * intros (y & Y & I & K). exists y, Y. split; [right; exact I|exact K].
      * intros (y & Y & [<-|I] & EY & T & N & A); [|exists y, Y; auto].
        replace Y with X in * by congruence. rewrite T, N, A, Z.eqb_refl, !bytes_eqb_refl in M. discriminate.
Qed.

(* ------------------------------------------------------------------ *)
(* Address maintenance *)

Definition set_addr (s : recs) (t : tv) (type : Z) (r : nat) (i : list Z) : res recs :=
  if type =? QTYPE_A then mdnsd_set_ip s t r i else mdnsd_set_ipv6 s t r i.
Definition put_addr (type : Z) (i : list Z) : answer -> answer :=
  if type =? QTYPE_A then put_ip i else put_ip6 i.

Lemma set_addr_eq : forall s t type r i, set_addr s t type r i = mdnsd_set s t r (put_addr type i).
Proof. intros. unfold set_addr, put_addr, mdnsd_set_ip, mdnsd_set_ipv6. destruct (type =? QTYPE_A); reflexivity. Qed.
Lemma keeps_addr : forall type i, keeps_id (put_addr type i).
Proof. intros. unfold put_addr. destruct (type =? QTYPE_A); [apply keeps_ip|apply keeps_ip6]. Qed.
Lemma addr_put : forall type i a, (type = QTYPE_A \/ type = QTYPE_AAAA) -> addr_of type (put_addr type i a) = i.
Proof. intros type i a [->| ->]; reflexivity. Qed.

Lemma hbut_live : forall x h h' y, hbut x h h' -> y <> x -> (h y <> None <-> h' y <> None).
Proof. intros x h h' y H N. apply onone. apply H. exact N. Qed.

Lemma add_addrs_inv : forall addrs s qs t host type ttl, rinv s qs ->
  exists s' qs', add_addrs s t host type ttl addrs = Ok s' /\ rinv s' qs'.
Proof.
  induction addrs as [|i l IH]; intros s qs t host type ttl H; cbn [add_addrs]; [exists s, qs; auto|].
  destruct (has_addr_ok (hp s) (chain_of s host) host type i (chain_of_live s host (ri_p _ _ H))) as (b & Eb & _).
  rewrite Eb. cbn [bind]. destruct b.
  - cbn [bind]. apply (IH s qs); exact H.
  - destruct (mdnsd_shared s host type ttl) as [s1 r] eqn:E1.
    destruct (mdnsd_shared_inv _ _ _ _ _ _ _ H E1) as (H1 & -> & F1 & G1 & O1 & C1).
    fold (set_addr s1 t type (fresh s) i). rewrite set_addr_eq.
    destruct (mdnsd_set_inv s1 qs t (fresh s) _ _ H1 (keeps_addr type i) G1) as (s2 & qs2 & Y & E2 & H2 & _).
    rewrite E2. cbn [bind]. eapply IH. exact H2.
Qed.

Lemma drop_addrs_inv : forall l s qs t host type addrs, rinv s qs -> all_live (hp s) l -> NoDup l ->
  exists s' qs', drop_addrs s t l host type addrs = Ok s' /\ rinv s' qs'.
Proof.
  induction l as [|x l IH]; intros s qs t host type addrs H L N; cbn [drop_addrs]; [exists s, qs; auto|].
  apply all_live_cons in L. destruct L as [[X E] L]. inversion N as [|? ? N1 N2]; subst.
  rewrite (hget_some _ _ _ E). cbn [bind].
  destruct ((a_type (rr X) =? type) && bytes_eqb (a_name (rr X)) host && negb (existsb (bytes_eqb (addr_of type (rr X))) addrs)).
  - destruct (mdnsd_done_inv s qs t x X H E) as (s' & qs' & E' & H' & B & _). rewrite E'. cbn [bind].
    eapply IH; [exact H'| |exact N2]. intros y I. rewrite <- (hbut_live x _ _ y B); [apply L; exact I|]. intros ->. contradiction.
  - cbn [bind]. apply (IH s qs); assumption.
Qed.

Lemma update_addresses_inv : forall s qs t host type addrs, rinv s qs ->
  exists s' qs', update_addresses s t host type addrs = Ok s' /\ rinv s' qs'.
Proof.
  intros s qs t host type addrs H. unfold update_addresses.
  destruct (mdnsd_find_ok s host type (ri_p _ _ H)) as (o & Eo & S). rewrite Eo. cbn [bind].
  assert (T : exists ttl, match o with None => Ok 120 | Some r => X <- hget (hp s) r;; Ok (if a_ttl (rr X) =? 0 then 120 else a_ttl (rr X)) end = Ok ttl).
  { destruct o as [x|]; [|eauto]. destruct S as (X & E & _). rewrite (hget_some _ _ _ E). cbn [bind]. eauto. }
  destruct T as (ttl & Et). rewrite Et. cbn [bind].
  destruct (add_addrs_inv addrs s qs t host type ttl H) as (s1 & qs1 & E1 & H1). rewrite E1. cbn [bind].
  apply (drop_addrs_inv _ s1 qs1); [exact H1|apply chain_of_live; apply (ri_p _ _ H1)|apply pok_chain_nodup; apply (ri_p _ _ H1)].
Qed.

Lemma host_names_ok : forall h l acc, all_live h l -> exists n, host_names h l acc = Ok n.
Proof.
  intros h l. induction l as [|x t IH]; intros acc L; cbn [host_names]; [eauto|].
  apply all_live_cons in L. destruct L as [[X E] L]. rewrite (hget_some _ _ _ E). cbn [bind].
  destruct (_ && _); apply IH; exact L.
Qed.

Lemma set_hosts_inv : forall hosts s qs t v4 v6, rinv s qs -> exists s' qs', set_hosts s t hosts v4 v6 = Ok s' /\ rinv s' qs'.
Proof.
  induction hosts as [|n l IH]; intros s qs t v4 v6 H; cbn [set_hosts]; [exists s, qs; auto|].
  destruct (update_addresses_inv s qs t n QTYPE_A v4 H) as (s1 & qs1 & E1 & H1). rewrite E1. cbn [bind].
  destruct (update_addresses_inv s1 qs1 t n QTYPE_AAAA v6 H1) as (s2 & qs2 & E2 & H2). rewrite E2. cbn [bind].
  eapply IH. exact H2.
Qed.

Lemma set_interface_addresses_inv : forall s qs t l n, rinv s qs -> exists s' qs', set_interface_addresses s t l n = Ok s' /\ rinv s' qs'.
Proof.
  intros s qs t l n H. unfold set_interface_addresses. destruct l as [l|]; [|exists s, qs; auto].
  cbv zeta. destruct (host_names_ok (hp s) (concat (pub s)) [] (pub_live s (ri_p _ _ H))) as (hosts & E). rewrite E. cbn [bind].
  eapply set_hosts_inv. exact H.
Qed.

Lemma set_all_inv : forall l s qs t type i, rinv s qs -> all_live (hp s) l -> is_zero i = false ->
  exists s' qs', set_all s t l type i = Ok s' /\ rinv s' qs'.
Proof.
  induction l as [|x l IH]; intros s qs t type i H L Z; cbn [set_all]; [exists s, qs; auto|].
  apply all_live_cons in L. destruct L as [[X E] L]. rewrite (hget_some _ _ _ E). cbn [bind]. rewrite Z.
  destruct (a_type (rr X) =? type).
  - fold (set_addr s t type x i). rewrite set_addr_eq.
    destruct (mdnsd_set_inv s qs t x _ _ H (keeps_addr type i) E) as (s2 & qs2 & Y & E2 & H2 & B & EY & _).
    rewrite E2. cbn [bind]. eapply IH; [exact H2| |exact Z]. intros y I.
    destruct (Nat.eq_dec y x) as [->|N]; [congruence|]. rewrite <- (hbut_live x _ _ y B N). apply L. exact I.
  - cbn [bind]. apply (IH s qs); assumption.
Qed.

(* ------------------------------------------------------------------ *)
(* records_clear *)

Lemma clear_all_ok : forall l s qs, qok s qs -> all_live (hp s) l -> NoDup l ->
  (forall u, In u (uans s) -> hp s (u_r u) <> None) ->
  exists s' qs', clear_all s l = Ok s' /\ qok s' qs' /\ (forall x, hp s' x <> None <-> hp s x <> None /\ ~ In x l) /\
    (forall u, In u (uans s') -> hp s' (u_r u) <> None) /\ fresh s' = fresh s.
Proof.
  induction l as [|x l IH]; intros s qs H L N UA; cbn [clear_all].
  - exists s, qs. split; [reflexivity|]. split; [exact H|]. split; [|auto]. intros x. cbn [In]. tauto.
  - apply all_live_cons in L. destruct L as [[X E] L]. inversion N as [|? ? N1 N2]; subst.
    rewrite (hget_some _ _ _ E). cbn [bind].
    destruct (r_remove_lists_spec s qs x None H ltac:(congruence)) as (s1 & E1 & H1 & F1). rewrite E1. cbn [bind].
    destruct F1 as [(R1 & R2 & R3 & _) F1].
    set (s2 := set_hp (u_remove s1 x) (hdel (hp (u_remove s1 x)) x)).
    assert (O1 : off (removed x None qs) x) by (intros q; unfold removed; cbn [skips]; apply remove1_self; apply (qk_nodup _ _ H)).
    assert (H2 : qok s2 (removed x None qs)).
    { split; cbn [s2 hp set_hp u_remove set_uans fresh].
      - intros y. destruct (Nat.eq_dec y x) as [->|D]; [rewrite hdel_same; congruence|]. rewrite hdel_other by exact D. apply (qk_fresh _ _ H1).
      - intros q. replace (head _ q) with (head s1 q) by (destruct q; reflexivity).
        eapply chain_ext; [|apply (qk_chain _ _ H1)]. intros y I. apply hdel_other. intros ->. exact (O1 q I).
      - apply (qk_nodup _ _ H1).
      - apply (qk_disj _ _ H1). }
    assert (L2 : forall y, hp s2 y <> None <-> hp s y <> None /\ y <> x).
    { intros y. cbn [s2 hp set_hp u_remove set_uans]. destruct (Nat.eq_dec y x) as [->|D]; [rewrite hdel_same; tauto|].
      rewrite hdel_other by exact D. rewrite <- (hframe_none _ _ _ F1). tauto. }
    destruct (IH s2 (removed x None qs)) as (s' & qs' & E' & H' & L' & U' & Fr').
    + exact H2.
    + intros y I. apply L2. split; [apply L; exact I|]. intros ->. contradiction.
    + exact N2.
    + intros u I. apply L2. cbn [s2 uans set_hp u_remove set_uans] in I. apply filter_In in I. destruct I as [I D].
      apply negb_true_iff, Nat.eqb_neq in D. split; [|exact D]. apply UA. rewrite <- R3. exact I.
    + exists s', qs'. split; [exact E'|]. split; [exact H'|]. split; [|split; [exact U'|]].
      * intros y. rewrite L', L2. cbn [In]. intuition congruence.
      * rewrite Fr'. exact R1.
Qed.

(* After records_clear nothing is left. *)
Lemma records_clear_ok : forall s qs, rinv s qs ->
  exists s', records_clear s = Ok s' /\ rinv s' (fun _ => []) /\ (forall x, hp s' x = None) /\ uans s' = [] /\ (forall q, head s' q = None) /\ concat (pub s') = [].
Proof.
  intros s qs H. unfold records_clear.
  destruct (clear_all_ok (concat (pub s)) s qs (ri_q _ _ H) (pub_live s (ri_p _ _ H)) (pk_nodup _ (ri_p _ _ H)) (ri_ua _ _ H)) as (s1 & qs1 & E1 & H1 & L1 & U1 & F1).
  rewrite E1. cbn [bind]. eexists. split; [reflexivity|].
  assert (D : forall x, hp s1 x = None).
  { intros x. destruct (hp s1 x) as [X|] eqn:E; [|reflexivity]. exfalso.
    assert (K : hp s1 x <> None) by congruence. apply L1 in K. destruct K as [K1 K2]. apply K2. apply (pk_live _ (ri_p _ _ H)). exact K1. }
  assert (U : uans s1 = []).
  { destruct (uans s1) as [|u l] eqn:E; [reflexivity|]. exfalso. apply (U1 u); [rewrite ?E; left; reflexivity|apply D]. }
  assert (Q : forall q, qs1 q = [] /\ head s1 q = None).
  { intros q. pose proof (qk_chain _ _ H1 q) as C. destruct (qs1 q) as [|x l] eqn:E; [cbn in C; auto|].
    cbn [chain] in C. destruct C as [_ (X & EX & _)]. rewrite D in EX. discriminate. }
  assert (CE : forall n, concat (repeat (@nil nat) n) = []) by (induction n as [|n IH]; [reflexivity|exact IH]).
  split; [|split; [exact D|split; [exact U|split]]].
  - split.
    + split; cbn [hp set_pub fresh].
      * intros x. rewrite D. congruence.
      * intros q. cbn [chain]. transitivity (head s1 q); [destruct q; reflexivity|apply Q].
      * constructor.
      * intros p q x [].
    + split; cbn [hp set_pub pub].
      * apply repeat_length.
      * intros x. rewrite D, CE. cbn. tauto.
      * rewrite CE. constructor.
      * intros i x X _ E. rewrite D in E. discriminate.
    + intros x X E. cbn [hp set_pub] in E. rewrite D in E. discriminate.
    + intros u I. cbn [uans set_pub] in I. rewrite U in I. destruct I.
  - intros q. transitivity (head s1 q); [destruct q; reflexivity|apply Q].
  - apply CE.
Qed.
