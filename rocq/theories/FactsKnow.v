(* Supporting proofs for PropHear.v: what a receiver knows afterwards. *)
From Verif Require Import Base Lemmas SpecDns Hash HashProofs Wire WireSafe WireRound Rec Qry Out In Api RecInv RecSafe OutSafe QryInv QryOps CacheOps InSafe DaemonInv SpecDaemon SpecCache FactsCalls FactsCache FactsTold Step SpecStep SpecHear FactsStep FactsHear.

Lemma lands : forall id now cls a from o l, wf_resource a -> 0 <= now -> rr_ttl a <> 0 ->
  exists c, In c (cached_in id now cls a from o l) /\ akey (c_rr c) = rkey a /\ alive now c = true.
Proof.
  intros id now cls a from o l W N T. unfold cached_in. cbv zeta. set (l1 := flushed _ _ _ _ l). replace (rr_ttl a =? 0) with false by lia. pose proof W as (W0 & _). pose proof (Z.div_pos (rr_ttl a) 2 W0 ltac:(lia)).
  destruct (existsb (holds_rr a) l1) eqn:Ex.
  - apply existsb_exists in Ex as (c & I & M). exists (set_cttl c (now + rr_ttl a / 2 + 8)). split; [|split].
    + unfold refreshed. apply in_map_iff. exists c. rewrite M. auto.
    + apply (a_match_key _ _ W) in M. rewrite <- M. reflexivity.
    + unfold alive. cbn [set_cttl c_rr set_ttl a_ttl]. lia.
  - destruct (cache_answer_ok a (now + rr_ttl a / 2 + 8) from W) as (v & -> & Kv & Tv & _). eexists. split; [left; reflexivity|]. split; [exact Kv|]. unfold alive. cbn [c_rr]. lia.
Qed.

Lemma hits_key : forall cls a c c', wf_resource a -> akey (c_rr c) = akey (c_rr c') -> hits cls a c = hits cls a c'.
Proof.
  intros cls a c c' W K. unfold hits, c_match, holds_rr. f_equal.
  - f_equal. unfold akey in K. assert (a_name (c_rr c) = a_name (c_rr c')) as -> by congruence. assert (a_type (c_rr c) = a_type (c_rr c')) as -> by congruence. reflexivity.
  - f_equal. destruct (a_match a (c_rr c)) eqn:M, (a_match a (c_rr c')) eqn:M'; try reflexivity; exfalso; [apply (a_match_key _ _ W) in M; rewrite K in M; apply (a_match_key _ _ W) in M|apply (a_match_key _ _ W) in M'; rewrite <- K in M'; apply (a_match_key _ _ W) in M']; congruence.
Qed.

Lemma caches_keep : forall an s t cls cb from s', qinv s -> 0 <= t -> Forall wf_resource an -> caches s t cls cb from an = Ok s' ->
  forall i c, In c (centries s i) -> alive t c = true -> (forall a, In a an -> hits cls a c = false) -> exists c', In c' (centries s' i) /\ akey (c_rr c') = akey (c_rr c) /\ alive t c' = true.
Proof.
  induction an as [|a an IH]; intros s t cls cb from s' H N W E i c I Al Hi; [cbn [caches] in E; injection E as <-; eauto|].
  apply Forall_cons_iff in W as [Wa W]. cbn [caches] in E. destruct (cache_rr_spec s t cb cls a from H N Wa) as (s1 & T & o & id & E1 & H1 & _ & F & O & _). rewrite E1 in E. cbn [bind] in E.
  assert (G : exists c1, In c1 (centries s1 i) /\ akey (c_rr c1) = akey (c_rr c) /\ alive t c1 = true).
  { destruct (Nat.eq_dec i (cbucket (rr_name a))) as [->|Ni].
    - destruct (cached_in_keeps id t cls a from o _ c Wa I Al (Hi a (or_introl eq_refl))) as (c1 & I1 & K1 & K2 & K3).
      destruct (Forall2_in_l _ _ _ _ _ _ F I1) as (c2 & I2 & R1 & R2 & _). exists c2. split; [exact I2|]. unfold alive in *. rewrite R2. auto.
    - destruct (Forall2_in_l _ _ _ _ _ _ (O i Ni) I) as (c2 & I2 & R1 & R2 & _). exists c2. split; [exact I2|]. unfold alive in *. rewrite R2. auto. }
  destruct G as (c1 & I1 & K1 & A1). destruct (IH s1 t cls cb from s' H1 N W E i c1 I1 A1) as (c2 & I2 & K2 & A2).
  - intros b Ib. rewrite (hits_key cls b c1 c (proj1 (Forall_forall _ _) W b Ib) K1). apply Hi. right. exact Ib.
  - exists c2. split; [exact I2|]. split; [congruence|exact A2].
Qed.

Lemma caches_inv : forall an s t cls cb from s', qinv s -> 0 <= t -> Forall wf_resource an -> caches s t cls cb from an = Ok s' -> qinv s'.
Proof.
  induction an as [|a an IH]; intros s t cls cb from s' H N W E; [cbn [caches] in E; injection E as <-; exact H|].
  apply Forall_cons_iff in W as [Wa W]. cbn [caches] in E. destruct (cache_rr_spec s t cb cls a from H N Wa) as (s1 & T & o & id & E1 & H1 & _). rewrite E1 in E. cbn [bind] in E. eapply IH; eauto.
Qed.

Lemma caches_know : forall pre a post s t cls cb from s', qinv s -> 0 <= t -> Forall wf_resource (pre ++ a :: post) -> caches s t cls cb from (pre ++ a :: post) = Ok s' -> rr_ttl a <> 0 ->
  (forall b, In b post -> rr_name b = rr_name a -> rr_type b = rr_type a \/ rr_type b = QTYPE_ANY -> rr_ttl b <> 0 /\ rr_class b <> cls + 32768) ->
  exists i c, In c (centries s' i) /\ akey (c_rr c) = rkey a /\ alive t c = true.
Proof.
  intros pre a post s t cls cb from s' H N W E T Hp. apply Forall_app in W as [Wp W]. apply Forall_cons_iff in W as [Wa W]. rewrite caches_app in E. apply bind_ok in E as (s1 & E1 & E).
  pose proof (caches_inv _ _ _ _ _ _ _ H N Wp E1) as H1. cbn [caches] in E. destruct (cache_rr_spec s1 t cb cls a from H1 N Wa) as (s2 & T2 & o & id & E2 & H2 & _ & F & O & _). rewrite E2 in E. cbn [bind] in E.
  destruct (lands id t cls a from o (centries s1 (cbucket (rr_name a))) Wa N T) as (c & I & Kc & Al). destruct (Forall2_in_l _ _ _ _ _ _ F I) as (c2 & I2 & R1 & R2 & _).
  destruct (caches_keep post s2 t cls cb from s' H2 N W E _ c2 I2) as (c3 & I3 & K3 & A3).
  - unfold alive in *. rewrite R2. exact Al.
  - intros b Ib. unfold hits, c_match, holds_rr. rewrite R2. unfold akey, rkey in Kc. assert (a_name (c_rr c) = rr_name a) as -> by congruence. assert (a_type (c_rr c) = rr_type a) as -> by congruence. specialize (Hp b Ib).
    pose proof (proj1 (Forall_forall _ _) W b Ib) as Wb. apply orb_false_iff. split; apply andb_false_iff.
    + destruct (rr_class b =? 32768 + cls) eqn:Cl; [right|left; reflexivity]. destruct (bytes_eqb (rr_name a) (rr_name b)) eqn:Nb; [|rewrite ?andb_false_r, ?andb_false_l; reflexivity]. rewrite ?andb_true_r, ?andb_true_l. apply bytes_eqb_eq in Nb. symmetry in Nb.
      destruct (rr_type b =? rr_type a) eqn:Y1; [exfalso; destruct (Hp Nb ltac:(left; lia)); lia|]. destruct (rr_type b =? QTYPE_ANY) eqn:Y2; [exfalso; destruct (Hp Nb ltac:(right; lia)); lia|]. reflexivity.
    + destruct (rr_ttl b =? 0) eqn:Tb; [right|left; reflexivity]. destruct (a_match b (c_rr c)) eqn:M; [|reflexivity]. exfalso. apply (a_match_key _ _ Wb) in M. unfold akey, rkey in M.
      destruct (Hp ltac:(congruence) ltac:(left; congruence)). lia.
  - exists (cbucket (rr_name a)), c3. split; [exact I3|]. split; [rewrite K3, R2; exact Kc|exact A3].
Qed.

(* Told at the first occurrence *)
Lemma caches_told : forall an s t cls cb from s', qinv s -> 0 <= t -> Forall wf_resource an -> caches s t cls cb from an = Ok s' -> (forall k, cb k = false) ->
  forall a q y, In a an -> rr_ttl a <> 0 -> qh s q = Some y -> q_nm y = rr_name a -> q_ty y = rr_type a -> (forall i c, In c (centries s i) -> akey (c_rr c) <> rkey a) ->
  exists T v, told s' = told s ++ T /\ In (q_cb y, v) T /\ akey v = rkey a /\ t < a_ttl v.
Proof.
  induction an as [|b an IH]; intros s t cls cb from s' H N W E Cb a q y I Ta Ey Ny Yy Nc; [destruct I|].
  apply Forall_cons_iff in W as [Wb W]. cbn [caches] in E. destruct (cache_rr_spec s t cb cls b from H N Wb) as (s1 & T1 & o & id & E1 & H1 & Sh & F & O & Z). rewrite E1 in E. cbn [bind] in E.
  destruct (Z Cb) as (Z1 & Z2 & Z3 & Qf & Z4 & Z5 & ET).
  assert (Tail : exists T2, told s' = told s1 ++ T2).
  { clear - E H1 N W. revert s1 E H1. induction an as [|x an IH]; intros s1 E H1; [cbn [caches] in E; injection E as <-; exists []; rewrite app_nil_r; reflexivity|]. apply Forall_cons_iff in W as [Wx W]. cbn [caches] in E.
    destruct (cache_rr_spec s1 t cb cls x from H1 N Wx) as (s2 & T & o & id & E1 & H2 & Sh & _). rewrite E1 in E. cbn [bind] in E. destruct (IH W s2 E H2) as (T2 & ->). rewrite (sh_told _ _ _ _ Sh), <- app_assoc. eauto. }
  assert (Dec : rkey b = rkey a /\ rr_ttl b <> 0 \/ ~ (rkey b = rkey a /\ rr_ttl b <> 0)).
  { destruct (Z.eq_dec (rr_ttl b) 0); [right; tauto|]. destruct (cache_answer_ok a 0 from) as (v & _ & Kv & _); [exact (proj1 (Forall_forall _ _) (Forall_cons b Wb W) a I)|].
    destruct (a_match b v) eqn:M; [left|right]; [apply (a_match_key _ _ Wb) in M; split; [congruence|assumption]|]. intros [K _]. assert (akey v = rkey b) as K' by congruence. apply (a_match_key _ _ Wb) in K'. congruence. }
  destruct Dec as [[Kb Tb]|D].
  - destruct Tail as (T2 & Et). destruct (news_told s t cls b from o (centries s (cbucket (rr_name b))) Wb N Qf) as [[A _]|(_ & _ & q' & y' & v & -> & Ey' & Sv & Tv & Nw)].
    + exfalso. destruct A as [A|[A|A]]; [contradiction| |].
      * apply existsb_exists in A as (c & Ic & M). apply (a_match_key _ _ Wb) in M. unfold flushed in Ic. apply (Nc (cbucket (rr_name b)) c); [|congruence]. destruct (_ =? _); [apply filter_In in Ic; tauto|exact Ic].
      * subst o. apply (Qf q y Ey). unfold rkey in Kb. split; congruence.
    + exists (T1 ++ T2), v. split; [rewrite Et, (sh_told _ _ _ _ Sh), app_assoc; reflexivity|]. destruct Qf as (y2 & Ey2 & N2 & Y2). assert (y2 = y') by congruence. subst y2.
      assert (q' = q) by (unfold rkey in Kb; apply (qi_one _ H q' q y' y Ey' Ey); congruence). subst q'. assert (y' = y) by congruence. subst y'. split; [|split].
      * apply in_or_app. left. rewrite ET. assert (J : In (q_cb y, v) (news (told_of s t cls b from (Some q) (centries s (cbucket (rr_name b)))))) by (rewrite Nw; left; reflexivity). apply filter_In in J as [J _]. exact J.
      * rewrite <- Kb. apply rkey_iff; assumption.
      * pose proof Wb as (W0 & _). pose proof (Z.div_pos (rr_ttl b) 2 W0 ltac:(lia)). lia.
  - destruct I as [->|I]; [exfalso; apply D; auto|].
    destruct (IH s1 t cls cb from s' H1 N W E Cb a q y I Ta ltac:(rewrite Z1; exact Ey) Ny Yy) as (T & v & Et & Iv & Kv & Tv).
    + intros i c Ic K. destruct (Nat.eq_dec i (cbucket (rr_name b))) as [->|Ni]; [|rewrite (Z5 i Ni) in Ic; exact (Nc i c Ic K)]. rewrite Z4 in Ic. unfold cached_in in Ic. cbv zeta in Ic.
      set (l1 := flushed t (rr_class b =? 32768 + cls) (rr_name b) (rr_type b) (centries s (cbucket (rr_name b)))) in *. assert (Sub : forall x, In x l1 -> akey (c_rr x) <> rkey a) by (intros x Ix; apply (Nc (cbucket (rr_name b))); unfold l1, flushed in Ix; destruct (_ =? _); [apply filter_In in Ix; tauto|exact Ix]).
      destruct (rr_ttl b =? 0) eqn:Tb.
      * unfold withdrawn in Ic. destruct (existsb _ _); [apply filter_In in Ic as [Ic _]|]; exact (Sub c Ic K).
      * destruct (existsb (holds_rr b) l1).
        -- unfold refreshed in Ic. apply in_map_iff in Ic as (x & <- & Ix). apply (Sub x Ix). rewrite <- K. destruct (holds_rr b x); reflexivity.
        -- destruct (cache_answer_ok b (t + rr_ttl b / 2 + 8) from Wb) as (w & Ew & Kw & _). rewrite Ew in Ic. destruct Ic as [<-|Ic]; [|exact (Sub c Ic K)]. apply D. cbn [c_rr] in K. split; [congruence|lia].
    + exists (T1 ++ T), v. split; [rewrite Et, (sh_told _ _ _ _ Sh), app_assoc; reflexivity|]. split; [apply in_or_app; right; exact Iv|auto].
Qed.

(* The record of the sender and what is heard of it *)
Lemma heard_key : forall tld sec cl X a, sound_item tld (shown SAn cl X) -> set_by_type (rr X) -> heard_record sec (shown SAn cl X) = [a] -> rkey a = akey (rr X) /\ rr_ttl a = a_ttl (rr X) /\ rr_name a = a_name (rr X) /\ rr_type a = a_type (rr X).
Proof.
  intros tld sec cl X a Sd By Ha. unfold shown in *. cbn [heard_record] in Ha. destruct (Nat.eqb _ _); [|discriminate]. injection Ha as <-. cbn [rr_ttl rr_name rr_type]. split; [|auto].
  destruct Sd as [(q & K & _)|(s & r & K & (_ & _ & _ & Df) & _)]; [discriminate|]. unfold item_of in K. injection K as Ks Kn Kt Kc Kl Kd. rewrite <- Kt in Df.
  unfold rkey, akey, rdata_of, adata. cbn [rr_name rr_type rr_known rr_rdata]. f_equal. unfold set_by_type in By. unfold a_copy in *.
  destruct (a_type (rr X) =? QTYPE_SRV) eqn:Ts.
  - destruct (data r) as [ip|ip|dd|n|p w qq n]; try discriminate. cbn [data_of] in Kd. injection Kd as K1 K2 K3 K4. rewrite K4. reflexivity.
  - destruct (a_rdname (rr X)) as [nn|] eqn:En.
    + destruct (data r) as [ip|ip|dd|n|p w qq n]; try discriminate. cbn [data_of] in Kd. injection Kd as Kd. cbn [data_fits] in Df.
      assert (Tn : is_name_type (a_type (rr X)) = true) by (unfold is_name_type, QTYPE_PTR, QTYPE_NS, QTYPE_CNAME; destruct Df as [D|[D|[D|[]]]]; rewrite <- D; reflexivity). rewrite Tn. reflexivity.
    + destruct (a_rdata (rr X)) as [dat|] eqn:Er.
      * destruct (data r) as [ip|ip|dd|n|p w qq n]; try discriminate. cbn [data_of] in Kd. injection Kd as Kd. cbn [data_fits] in Df. destruct Df as (_ & _ & Dn & _).
        assert (Tn : is_name_type (a_type (rr X)) = false). { unfold is_name_type, QTYPE_PTR, QTYPE_NS, QTYPE_CNAME. cbn [In] in Dn. lia. } rewrite Tn.
        assert (TA : (a_type (rr X) =? QTYPE_A) = false) by (destruct (a_type (rr X) =? QTYPE_A) eqn:Y; [discriminate By; left; lia|reflexivity]).
        assert (T6 : (a_type (rr X) =? QTYPE_AAAA) = false) by (destruct (a_type (rr X) =? QTYPE_AAAA) eqn:Y; [discriminate By; right; lia|reflexivity]). rewrite TA, T6. reflexivity.
      * destruct (negb (is_zero (a_ip (rr X)))).
        { destruct (data r) as [ip|ip|dd|n|p w qq n]; try discriminate. cbn [data_fits] in Df. destruct Df as (D & _). rewrite D. reflexivity. }
        destruct (negb (is_zero (a_ip6 (rr X)))); [|discriminate].
        destruct (data r) as [ip|ip|dd|n|p w qq n]; try discriminate. cbn [data_fits] in Df. destruct Df as (D & _). rewrite D. reflexivity.
Qed.

Lemma delivered : forall d e d' m n tld, reach d -> legal d e OOut -> step d e OOut = Ok (d', RMsg m n) -> sendable tld m -> o_qr m = true ->
  forall d2 e2 from, reach d2 -> 0 <= fst (e_now e2) -> is_shutdown d2 = false -> foreign d2 e2 from ->
  exists d2', process_in d2 [(e2, Datagram (snd (packet_of m)) from)] = Ok (d2', 0) /\ reach d2' /\
    (forall X, gives (class d2) m X -> a_ttl (rr X) <> 0 -> set_by_type (rr X) -> exists c, cache_holds d2' c /\ same_content (c_rr c) (rr X) /\ fst (e_now e2) < a_ttl (c_rr c)) /\
    (forall X y, shows m X -> a_ttl (rr X) <> 0 -> set_by_type (rr X) -> (forall k, e_cb e2 k = false) -> registered d2 y -> is_for y (a_name (rr X)) (a_type (rr X)) ->
       (forall c, cache_holds d2 c -> ~ same_content (c_rr c) (rr X)) -> exists T v, told (Q d2') = told (Q d2) ++ T /\ In (q_cb y, v) T /\ same_content v (rr X) /\ fst (e_now e2) < a_ttl v).
Proof.
  intros d e d' m n tld K L E S Qr d2 e2 from K2 N2 Sd F. destruct (packet_own d e d' m n tld K L E S) as (_ & _ & Wf). pose proof (packet_delivered d e d' m n tld K L E S d2 e2 from) as Pd.
  destruct (in_does d2 e2 (heard m) from K2 N2 Wf) as (d2' & k & Ei & _). rewrite Ei in Pd. cbn [bind fst] in Pd. exists d2'. split; [exact Pd|].
  assert (Lg : legal d2 e2 (OIn (heard m) from)) by (split; assumption).
  assert (Es : step d2 e2 (OIn (heard m) from) = Ok (d2', RInt k)) by (cbn [step]; rewrite Ei; reflexivity).
  split; [eapply reach_step; eauto|].
  assert (Hqr : h_qr (m_header (heard m)) <> 0) by (unfold heard, heard_header; cbn [m_header]; rewrite Qr; discriminate).
  destruct (in_caches d2 e2 (heard m) from d2' _ Sd F Hqr Es) as (Ca & _). destruct (reach_dinv d2 K2) as (qs2 & _ & (Hq & _)). assert (K2' : reach d2') by (eapply reach_step; eauto). destruct S as (_ & Snd & _).
  assert (Man : m_an (heard m) = flat_map (heard_record 1) (items (o_calls m))) by reflexivity. unfold wf_message in Wf. split.
  - intros X (cl & pre & post & Ei' & Hp) Tx By. assert (Sx : sound_item tld (shown SAn cl X)) by (apply Snd; unfold says; rewrite Ei'; apply in_or_app; right; left; reflexivity).
    destruct (heard_record 1 (shown SAn cl X)) as [|a [|? ?]] eqn:Ha; try (unfold shown in Ha; cbn [heard_record section_of Nat.eqb] in Ha; discriminate Ha).
    destruct (heard_key tld 1 cl X a Sx By Ha) as (Kx & Tt & Nx & Yx).
    rewrite Man, Ei', flat_map_app in Ca, Wf. cbn [flat_map] in Ca, Wf. rewrite Ha in Ca, Wf. cbn [app] in Ca, Wf.
    destruct (caches_know _ a _ _ _ _ _ _ _ Hq N2 Wf Ca ltac:(congruence)) as (i & c & Ic & Kc & Al).
    + intros b Ib Nb Yb. apply in_flat_map in Ib as (j & Ij & Ib). destruct j as [|sec nj tj cj lj dj]; [destruct Ib|]. cbn [heard_record] in Ib. destruct (Nat.eqb_spec (section_of (IRecord sec nj tj cj lj dj)) 1) as [Es1|]; [|destruct Ib].
      destruct Ib as [<-|[]]. cbn [rr_name rr_type rr_ttl rr_class] in *. assert (sec = SAn) as -> by (destruct sec; try discriminate Es1; reflexivity). rewrite Nx in Nb. rewrite Yx in Yb. exact (Hp _ _ _ _ _ Ij Nb Yb).
    + exists c. split; [apply (holds_bucket _ _ K2'); eauto|]. split; [apply akey_iff; congruence|unfold alive in Al; lia].
  - intros X y (cl & Sy) Tx By Cb (q & Iq & Ey) [Fy1 Fy2] Nc. pose proof (Snd _ Sy) as Sx.
    destruct (heard_record 1 (shown SAn cl X)) as [|a [|? ?]] eqn:Ha; try (unfold shown in Ha; cbn [heard_record section_of Nat.eqb] in Ha; discriminate Ha).
    destruct (heard_key tld 1 cl X a Sx By Ha) as (Kx & Tt & Nx & Yx).
    assert (Ia : In a (m_an (heard m))) by (rewrite Man; apply in_flat_map; exists (shown SAn cl X); split; [exact Sy|rewrite Ha; left; reflexivity]).
    destruct (caches_told _ _ _ _ _ _ _ Hq N2 Wf Ca Cb a q y Ia ltac:(congruence) Ey ltac:(congruence) ltac:(congruence)) as (T & v & Et & Iv & Kv & Tv).
    + intros i c Ic Kc. apply (Nc c); [apply (holds_bucket _ _ K2); eauto|]. apply akey_iff. congruence.
    + exists T, v. split; [exact Et|]. split; [exact Iv|]. split; [apply akey_iff; congruence|exact Tv].
Qed.
