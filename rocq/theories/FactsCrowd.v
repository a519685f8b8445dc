From Verif Require Import Base Lemmas Hash Wire Rec Qry Out In Api QryInv QryOps SpecDaemon SpecCache SpecCrowd CacheOps InResp DaemonInv Scenario FactsOut FactsCache FactsTold FactsKnow FactsCalls.

Lemma pairs_nodup {A B} (f : A -> B) (l : list A) : ForallOrdPairs (fun x y => f x <> f y) l -> NoDup (map f l).
Proof.
  induction 1 as [|x l F _ IH]; [constructor|]. cbn [map]. constructor; [|exact IH]. intros I. apply in_map_iff in I as (y & E & I). rewrite Forall_forall in F. apply (F y I). congruence.
Qed.
Lemma history_legal d0 l d : history d0 l d -> forall ev, In ev l -> legal (ev_before ev) (ev_env ev) (ev_call ev).
Proof.
  intros H. induction H as [|l d e o x d' H IH L E]; intros ev I; [destruct I|]. apply in_app_or in I as [I|[<-|[]]]; [exact (IH ev I)|exact L].
Qed.
Lemma cache_bounded t cls frm l d : 0 <= fst t -> history (mdnsd_new t cls frm) l d -> (cache_size d <= answers_received l)%nat.
Proof.
  intros N Hh. pose proof (history_reach _ _ _ (reach_new t cls frm N) Hh) as K.
  assert (ND : NoDup (map (fun c => akey (c_rr c)) (concat (cache (Q d))))).
  { apply pairs_nodup. eapply pairs_weaken; [|exact (no_duplicates d K)]. intros x y A B. apply A. apply akey_iff. exact B. }
  unfold cache_size, answers_received. rewrite <- (map_length (fun c => akey (c_rr c))), <- (map_length rkey).
  apply NoDup_incl_length; [exact ND|]. intros k I. apply in_map_iff in I as (c & <- & Ic).
  destruct (cache_brought t cls frm l d N Hh c Ic) as (ev & m & from & a & Iev & Ec & Qr & Ia & Ta & Sa & _).
  apply in_map_iff. exists a. split.
  - pose proof (history_legal _ _ _ Hh ev Iev) as [_ W]. rewrite Ec in W. symmetry. apply rkey_iff; [|exact Sa]. exact (proj1 (Forall_forall _ _) W a Ia).
  - apply in_flat_map. exists ev. split; [exact Iev|]. unfold answers_in. rewrite Ec. replace (h_qr (m_header m) =? 0) with false by lia. exact Ia.
Qed.

(* one more address in each packet *)
Definition ip_of (n : Z) : list Z := [n / 16777216; (n / 65536) mod 256; (n / 256) mod 256; n mod 256].
Definition one_more (n : Z) : message := telling [rr_a (nm 97) 1 3600 (ip_of n)].
Lemma ip_of_inj i j : 0 <= i -> 0 <= j -> ip_of i = ip_of j -> i = j.
Proof.
  intros A B K. unfold ip_of in K. injection K as K1 K2 K3 K4.
  assert (Dc : forall n, n = n / 16777216 * 16777216 + (n / 65536) mod 256 * 65536 + (n / 256) mod 256 * 256 + n mod 256).
  { clear. intros n. pose proof (Z.div_mod n 256 ltac:(lia)). pose proof (Z.div_mod (n / 256) 256 ltac:(lia)) as D2. rewrite Z.div_div in D2 by lia. change (256 * 256) with 65536 in D2.
    pose proof (Z.div_mod (n / 65536) 256 ltac:(lia)) as D3. rewrite Z.div_div in D3 by lia. change (65536 * 256) with 16777216 in D3. lia. }
  rewrite (Dc i), (Dc j), K1, K2, K3, K4. reflexivity.
Qed.
Lemma wf_one n : wf_message (one_more n).
Proof. apply Forall_cons; [apply wf_resourceb_ok; reflexivity|apply Forall_nil]. Qed.
Lemma crowd_alive l d c : history (mdnsd_new (1, 0) 1 1400) l d -> only_from (1, 0) peer l -> cache_holds d c -> 1 < a_ttl (c_rr c).
Proof.
  intros Hh On Ic. destruct (cache_brought (1, 0) 1 1400 l d ltac:(cbn [fst]; lia) Hh c Ic) as (ev & m & from & a & Iev & Ec & Qr & Ia & Ta & Sa & Tt & _).
  rewrite Tt, (proj1 (On ev Iev)). cbn [fst]. pose proof (history_legal _ _ _ Hh ev Iev) as [_ W]. rewrite Ec in W. pose proof (proj1 (Forall_forall _ _) W a Ia) as (W0 & _). pose proof (Z.div_pos (rr_ttl a) 2 W0 ltac:(lia)). lia.
Qed.
Lemma crowd : forall n, exists l d, history (mdnsd_new (1, 0) 1 1400) l d /\ only_from (1, 0) peer l /\ length l = n /\ answers_received l = n /\ (forall ev, In ev l -> exists i, 0 <= i < Z.of_nat n /\ ev_call ev = OIn (one_more i) peer) /\
  is_shutdown d = false /\ class d = 1 /\ foreign d (at_ (1, 0)) peer /\
  forall i, 0 <= i < Z.of_nat n -> exists c, cache_holds d c /\ akey (c_rr c) = rkey (rr_a (nm 97) 1 3600 (ip_of i)).
Proof.
  induction n as [|n (l & d & Hh & On & Ln & An & Ms & Sd & Cl & F & Hc)].
  - exists [], (mdnsd_new (1, 0) 1 1400). split; [constructor|]. split; [intros ev []|]. do 2 (split; [reflexivity|]). split; [intros ev []|]. do 3 (split; [reflexivity|]|| (split; [split; [vm_compute; discriminate|intros l [K|K]; vm_compute in K; discriminate]|])). intros i I. lia.
  - pose proof (history_reach _ _ _ (reach_new (1, 0) 1 1400 ltac:(cbn [fst]; lia)) Hh) as K.
    set (m := one_more (Z.of_nat n)). assert (L : legal d (at_ (1, 0)) (OIn m peer)) by (split; [cbn [at_ e_now fst]; lia|apply wf_one]).
    destruct (reach_ok d _ _ K L) as (d' & x & E). pose proof (reach_step _ _ _ _ _ K L E) as K'.
    assert (Qr : h_qr (m_header m) <> 0) by discriminate.
    destruct (in_caches d _ m peer d' x Sd F Qr E) as (Ca & F' & Sd' & Cl').
    exists (l ++ [mkevent d (at_ (1, 0)) (OIn m peer) x d']), d'. split; [econstructor; eauto|].
    split; [intros ev I; apply in_app_or in I as [I|[<-|[]]]; [exact (On ev I)|split; [reflexivity|exists m; reflexivity]]|].
    split; [rewrite app_length, Ln; cbn [length]; lia|].
    split; [unfold answers_received in *; rewrite flat_map_app, app_length, An; cbn; lia|].
    split; [intros ev I; apply in_app_or in I as [I|[<-|[]]]; [destruct (Ms ev I) as (i & Hi & Ei); exists i; split; [lia|exact Ei]|exists (Z.of_nat n); split; [lia|reflexivity]]|].
    split; [exact Sd'|]. split; [congruence|]. split; [exact F'|].
    intros i Hi. destruct (Z.eq_dec i (Z.of_nat n)) as [->|Ne].
    + destruct (reach_dinv d K) as (qs & _ & (Hq & _)). unfold m in Ca. unfold one_more in Ca at 1. cbn [m_an telling] in Ca.
      destruct (caches_know [] (rr_a (nm 97) 1 3600 (ip_of (Z.of_nat n))) [] _ _ _ _ _ _ Hq (proj1 L) (wf_one (Z.of_nat n)) Ca ltac:(discriminate) ltac:(intros b [])) as (j & c & Ic & Kc & Al).
      exists c. split; [apply (holds_bucket _ _ K'); eauto|]. exact Kc.
    + destruct (Hc i ltac:(lia)) as (c & Ic & Kc).
      assert (Tc : fst (e_now (at_ (1, 0))) < a_ttl (c_rr c)) by (cbn [at_ e_now fst]; apply (crowd_alive l d); auto).
      destruct (spared d _ m peer d' x K L Sd F Qr E c Ic Tc) as (c' & Ic' & _ & Sc').
      { intros a [<-|[]]. split; [intros [T _]; discriminate|]. intros (Fc & _). cbn [rr_class rr_a] in Fc. rewrite Cl in Fc. discriminate. }
      exists c'. split; [exact Ic'|]. apply akey_iff in Sc'. congruence.
Qed.
Lemma crowd_many n l d : NoDup (map (fun i => rkey (rr_a (nm 97) 1 3600 (ip_of (Z.of_nat i)))) (seq 0 n)) ->
  (forall i, 0 <= i < Z.of_nat n -> exists c, cache_holds d c /\ akey (c_rr c) = rkey (rr_a (nm 97) 1 3600 (ip_of i))) -> only_from (1, 0) peer l -> (n <= cache_size d)%nat.
Proof.
  intros ND Hc _. unfold cache_size. rewrite <- (map_length (fun c => akey (c_rr c))). rewrite <- (seq_length n 0), <- (map_length (fun i => rkey (rr_a (nm 97) 1 3600 (ip_of (Z.of_nat i))))).
  apply NoDup_incl_length; [exact ND|]. intros k I. apply in_map_iff in I as (i & <- & I). apply in_seq in I. destruct (Hc (Z.of_nat i) ltac:(lia)) as (c & Ic & Kc). apply in_map_iff. exists c. split; [exact Kc|exact Ic].
Qed.
Lemma keys_differ n : NoDup (map (fun i => rkey (rr_a (nm 97) 1 3600 (ip_of (Z.of_nat i)))) (seq 0 n)).
Proof.
  apply FinFun.Injective_map_NoDup; [|apply seq_NoDup]. intros i j K. unfold rkey in K. cbn [rr_name rr_type rr_a] in K. assert (ip_of (Z.of_nat i) = ip_of (Z.of_nat j)) as K2.
  { injection K as K. unfold rdata_of in K. cbn in K. unfold ip_of. congruence. }
  apply ip_of_inj in K2; lia.
Qed.
Lemma cache_fresh t cls frm l d e d' m : 0 <= fst t -> history (mdnsd_new t cls frm) l d -> legal d e OOut -> is_shutdown d = false -> expireall d < fst (e_now e) ->
  step d e OOut = Ok (d', RMsg m 0) -> (cache_size d' <= fresh_received (fst (e_now e)) l)%nat.
Proof.
  intros N Hh L Sd X E. pose proof (history_reach _ _ _ (reach_new t cls frm N) Hh) as K. pose proof (reach_step _ _ _ _ _ K L E) as K'.
  assert (Hh' : history (mdnsd_new t cls frm) (l ++ [mkevent d e OOut (RMsg m 0) d']) d') by (econstructor; eauto).
  assert (ND : NoDup (map (fun c => akey (c_rr c)) (concat (cache (Q d'))))).
  { apply pairs_nodup. eapply pairs_weaken; [|exact (no_duplicates d' K')]. intros x y A B. apply A. apply akey_iff. exact B. }
  unfold cache_size, fresh_received. rewrite <- (map_length (fun c => akey (c_rr c))), <- (map_length rkey).
  apply NoDup_incl_length; [exact ND|]. intros k I. apply in_map_iff in I as (c & <- & Ic).
  pose proof (sweep_clears d e d' m K L Sd X E c Ic) as Al.
  destruct (cache_brought t cls frm _ d' N Hh' c Ic) as (ev & m1 & from & a & Iev & Ec & Qr & Ia & Ta & Sa & Tt & _).
  apply in_app_or in Iev as [Iev|[<-|[]]]; [|discriminate].
  apply in_map_iff. exists a. split.
  - pose proof (history_legal _ _ _ Hh ev Iev) as [_ W]. rewrite Ec in W. symmetry. apply rkey_iff; [|exact Sa]. exact (proj1 (Forall_forall _ _) W a Ia).
  - apply in_flat_map. exists ev. split; [exact Iev|]. unfold fresh_in. apply filter_In. split; [|lia]. unfold answers_in. rewrite Ec. replace (h_qr (m_header m1) =? 0) with false by lia. exact Ia.
Qed.
Lemma crowded : forall n, Z.of_nat n <= 4294967296 -> exists l d, history (mdnsd_new (1, 0) 1 1400) l d /\ only_from (1, 0) peer l /\ length l = n /\ cache_size d = n /\
  forall ev, In ev l -> exists ip, ev_call ev = OIn (telling [rr_a (nm 97) 1 3600 ip]) peer /\ bytes ip /\ length ip = 4%nat.
Proof.
  intros n Le. destruct (crowd n) as (l & d & Hh & On & Ln & An & Ms & _ & _ & _ & Hc). exists l, d. split; [exact Hh|]. split; [exact On|]. split; [exact Ln|].
  pose proof (cache_bounded (1, 0) 1 1400 l d ltac:(cbn [fst]; lia) Hh). pose proof (crowd_many n l d (keys_differ n) Hc On). split; [lia|].
  intros ev I. destruct (Ms ev I) as (i & Hi & Ei). exists (ip_of i). split; [exact Ei|]. split; [|reflexivity]. unfold bytes, is_byte, ip_of. repeat constructor; lia.
Qed.
