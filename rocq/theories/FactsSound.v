(* What the .service files publish can be told to other hosts. *)
From Coq Require Import String.
From Verif Require Import Base Lemmas SpecDns SpecMap SpecTxt Hash HashProofs Xht SdTxt XhtProofs SdTxtProofs Wire Rec Qry Out In Api RecInv RecSafe RecOps RecAddr OutSafe DaemonInv SpecDaemon SpecAddr SpecCache SpecData FactsCalls FactsAddr FactsItems FactsEvolve FactsOut FactsData FactsSize FactsSized Lib Conf Load SpecConf SpecLoad FactsLoad FactsLoad2 FactsLoad3 Step SpecStep SpecHear FactsHear FactsKnow FactsUni Scenario SpecSound.
Open Scope list_scope.

(* ------------------------------------------------------------------ *)
(* Records without data of another type *)
Definition texty (ty : Z) : Prop := ty = QTYPE_TXT \/ ty = QTYPE_A \/ ty = QTYPE_AAAA.
Definition bare (a : answer) : Prop :=
  (texty (a_type a) -> a_rdname a = None) /\ (addrt a -> a_rdata a = None) /\ (a_type a = QTYPE_AAAA -> is_zero (a_ip a) = true) /\ u32 (a_ttl a) /\ sized a.
Definition bare_recs (s : recs) : Prop := forall x X, hp s x = Some X -> bare (rr X).

Lemma bare_new : forall n ty ttl, u32 ttl -> bare (new_answer n ty ttl).
Proof. intros n ty ttl U. repeat split; try (intros _; reflexivity); try reflexivity; apply U. Qed.
Lemma bare_gone : forall a, bare a -> bare (set_ttl a 0).
Proof. intros a (A & B & C & D & S1 & S2). repeat split; try assumption; cbn; lia. Qed.
Lemma bare_ip : forall a i, bare a -> a_type a = QTYPE_A -> zlen i = 4 -> bare (put_ip i a).
Proof. intros a i (A & B & C & D & S1 & S2) T Zi. split; [exact A|]. split; [exact B|]. split; [|split; [exact D|split; assumption]]. intros Q. cbn in Q. rewrite T in Q. discriminate Q. Qed.
Lemma bare_ip6 : forall a i, bare a -> zlen i = 16 -> bare (put_ip6 i a).
Proof. intros a i (A & B & C & D & S1 & S2) Zi. split; [exact A|]. split; [exact B|]. split; [exact C|]. split; [exact D|split; assumption]. Qed.
Definition ip_size (ty : Z) : Z := if ty =? QTYPE_A then 4 else 16.

Lemma shared_bare : forall s h ty ttl s' r, mdnsd_shared s h ty ttl = (s', r) -> u32 ttl -> bare_recs s -> bare_recs s' /\ exists X, hp s' r = Some X /\ rr X = new_answer h ty ttl.
Proof.
  intros s h ty ttl s' r E U B. unfold mdnsd_shared in E. injection E as <- <-. cbn [hp]. split; [|eexists; split; [apply hset_same|reflexivity]].
  intros x X EX. cbn [hp] in EX. unfold hset in EX. destruct (Nat.eqb x _); [|exact (B x X EX)]. injection EX as <-. apply bare_new. exact U.
Qed.
Lemma set_bare : forall s t r f s' X, mdnsd_set s t r f = Ok s' -> hp s r = Some X -> (bare (rr X) -> bare (f (rr X))) -> bare_recs s -> bare_recs s'.
Proof.
  intros s t r f s' X E EX F B x Y EY. destruct (set_rrs _ _ _ _ _ E x Y EY) as (X' & EX' & ->). destruct (Nat.eqb_spec x r) as [->|D]; [|exact (B x X' EX')]. rewrite EX in EX'. injection EX' as <-. apply F. exact (B r X EX).
Qed.
Definition or_gone (X Y : mrec) : Prop := rr Y = rr X \/ rr Y = set_ttl (rr X) 0.
Lemma or_gone_trans : forall X Y Z, or_gone X Y -> or_gone Y Z -> or_gone X Z.
Proof. intros X Y Z [A|A] [B|B]; unfold or_gone; rewrite B, A; auto. Qed.
Lemma done_bare : forall s t r s', mdnsd_done s t r = Ok s' -> bare_recs s -> bare_recs s'.
Proof.
  intros s t r s' E B x Y EY.
  destruct (mdnsd_done_evo or_gone (fun X => or_introl eq_refl) or_gone_trans (fun X p => or_introl eq_refl) (fun X => or_intror eq_refl) s t r s' E) as [H _].
  destruct (H x Y EY) as (X & EX & [-> | ->]); [exact (B x X EX)|apply bare_gone; exact (B x X EX)].
Qed.
Lemma add_addrs_bare : forall l s t h ty ttl s', add_addrs s t h ty ttl l = Ok s' -> u32 ttl -> Forall (fun i => zlen i = ip_size ty) l -> bare_recs s -> bare_recs s'.
Proof.
  induction l as [|i l IH]; intros s t h ty ttl s' E U Fs B; cbn [add_addrs] in E; [injection E as <-; exact B|]. inversion Fs as [|? ? Si Fs']; subst. unfold ip_size in Si. apply bind_ok in E as (b & _ & E). apply bind_ok in E as (s1 & E1 & E).
  apply (IH _ _ _ _ _ _ E U Fs'). destruct b; [injection E1 as <-; exact B|]. destruct (mdnsd_shared s h ty ttl) as [s2 r] eqn:E2. destruct (shared_bare _ _ _ _ _ _ E2 U B) as (B2 & X & EX & RX).
  destruct (ty =? QTYPE_A) eqn:T; (eapply set_bare; [exact E1|exact EX| |exact B2]); rewrite RX; intros K; [apply bare_ip; [exact K| |exact Si]; apply Z.eqb_eq in T; exact T|apply bare_ip6; [exact K|exact Si]].
Qed.
Lemma drop_addrs_bare : forall l s t h ty a s', drop_addrs s t l h ty a = Ok s' -> bare_recs s -> bare_recs s'.
Proof.
  induction l as [|x l IH]; intros s t h ty a s' E B; cbn [drop_addrs] in E; [injection E as <-; exact B|]. apply bind_ok in E as (X & _ & E). apply bind_ok in E as (s1 & E1 & E).
  apply (IH _ _ _ _ _ _ E). destruct (_ && _); [eapply done_bare; eassumption|injection E1 as <-; exact B].
Qed.
Lemma u32_120 : u32 120.
Proof. split; [lia|reflexivity]. Qed.
Lemma u32_4500 : u32 4500.
Proof. split; [lia|reflexivity]. Qed.
Lemma update_bare : forall s t h ty a s', update_addresses s t h ty a = Ok s' -> Forall (fun i => zlen i = ip_size ty) a -> bare_recs s -> bare_recs s'.
Proof.
  intros s t h ty a s' E Fs B. unfold update_addresses in E. apply bind_ok in E as (f & _ & E). apply bind_ok in E as (ttl & Et & E). apply bind_ok in E as (s1 & E1 & E).
  eapply drop_addrs_bare; [exact E|]. eapply add_addrs_bare; [exact E1| |exact Fs|exact B]. destruct f as [r|]; [|injection Et as <-; exact u32_120].
  apply bind_ok in Et as (X & EX & Et). apply hget_ok in EX. injection Et as <-. destruct (_ =? 0); [exact u32_120|]. apply (B r X EX).
Qed.
Lemma set_hosts_bare : forall l s t v4 v6 s', set_hosts s t l v4 v6 = Ok s' -> Forall (fun i => zlen i = 4) v4 -> Forall (fun i => zlen i = 16) v6 -> bare_recs s -> bare_recs s'.
Proof.
  induction l as [|n l IH]; intros s t v4 v6 s' E F4 F6 B; cbn [set_hosts] in E; [injection E as <-; exact B|]. apply bind_ok in E as (s1 & E1 & E). apply bind_ok in E as (s2 & E2 & E).
  apply (IH _ _ _ _ _ E F4 F6). eapply update_bare; [exact E2|exact F6|]. eapply update_bare; [exact E1|exact F4|exact B].
Qed.
(* The addresses of the interface have the right size. *)
Definition sized_ifs (e : env) (n : list Z) : Prop := forall l ip, e_ifs e = Some l -> (on_interface l n AF_INET ip -> zlen ip = 4) /\ (on_interface l n AF_INET6 ip -> zlen ip = 16).
Lemma ifaddrs_bare : forall d e n d' x, step d e (OSetIfaddrs n) = Ok (d', x) -> sized_ifs e n -> bare_recs (R d) -> bare_recs (R d').
Proof.
  intros d e n d' x E Zf B. cbn [step] in E. apply on_recs_ok in E as (s & E1 & -> & ->). cbn [with_R R]. unfold set_interface_addresses in E1. destruct (e_ifs e) as [l|] eqn:El; [|injection E1 as <-; exact B].
  cbv zeta in E1. apply bind_ok in E1 as (hs & _ & E1). refine (set_hosts_bare _ _ _ _ _ _ E1 _ _ B); apply Forall_forall; intros ip I; apply in_map_iff in I as (i & <- & I); apply filter_In in I as [I Fm]; apply filter_In in I as [I Nm]; apply Z.eqb_eq in Fm; apply (proj1 (bytes_eqb_eq _ _)) in Nm; apply (Zf l (if_ip i) El); exists i; auto.
Qed.

(* The calls of load() *)
Lemma sets_bare : forall d e o d' x r f X, step d e o = on_recs d (mdnsd_set (R d) (now d) r f) -> step d e o = Ok (d', x) -> record d r X -> (bare (rr X) -> bare (f (rr X))) -> bare_recs (R d) -> bare_recs (R d').
Proof. intros d e o d' x r f X Eo E EX F B. rewrite Eo in E. apply on_recs_ok in E as (s & E1 & -> & ->). cbn [with_R R]. exact (set_bare _ _ _ _ _ X E1 EX F B). Qed.
Lemma kept_bare : forall d d' r X, added d d' r -> record d' r X -> bare (rr X) -> bare_recs (R d) -> bare_recs (R d').
Proof.
  intros d d' r X A EX Bx B x Y EY. destruct (Nat.eq_dec x r) as [->|D]; [unfold record in EX; rewrite EX in EY; injection EY as <-; exact Bx|]. destruct (A x Y EY D) as (Z & EZ & Er & _). rewrite Er. exact (B x Z EZ).
Qed.
Lemma own_bare : forall d e name ty ttl, reach d -> 0 <= fst (e_now e) -> u32 ttl -> bare_recs (R d) ->
  exists d' r X, conf_record d e false None name ty ttl = Ok (d', r) /\ reach d' /\ bare_recs (R d') /\ record d' r X /\ a_type (rr X) = ty.
Proof.
  intros d e name ty ttl K T U B. destruct (record_own d e name ty ttl K T) as (d' & r & Y & E & K' & _ & Ad & EY & _ & Ty & D). exists d', r, Y. split; [exact E|]. split; [exact K'|]. split; [|auto].
  apply (kept_bare d d' r Y Ad EY); [|exact B]. destruct D as [(X & EX & -> & _)|(_ & -> & _)]; [exact (B r X EX)|apply bare_new; exact U].
Qed.
Lemma named_bare : forall d e host name ty ttl, reach d -> 0 <= fst (e_now e) -> u32 ttl -> ~ texty ty -> bare_recs (R d) ->
  exists d' r, conf_record d e true (Some host) name ty ttl = Ok (d', r) /\ reach d' /\ bare_recs (R d').
Proof.
  intros d e host name ty ttl K T U Nt B. destruct (record_safe d e true (Some host) name ty ttl K T) as (d' & r & E & K' & _). exists d', r. split; [exact E|]. split; [exact K'|].
  unfold conf_record in E. apply bind_ok in E as (o & _ & E). apply bind_ok in E as (o' & _ & E). destruct o' as [x|]; [injection E as <- <-; exact B|]. cbv iota in E.
  destruct (shared_do d e name ty ttl K T) as (d1 & r1 & Y & E1 & K1 & _ & Ad & EY & RY & _). rewrite E1 in E. cbn [bind] in E.
  assert (B1 : bare_recs (R d1)) by (apply (kept_bare d d1 r1 Y Ad EY); [rewrite RY; apply bare_new; exact U|exact B]).
  apply bind_ok in E as ([d2 x2] & E2 & E). injection E as <- <-. apply (sets_bare d1 e (OSetHost r1 host) d2 x2 r1 (put_host host) Y eq_refl E2 EY); [|exact B1]. rewrite RY. intros (C1 & C2 & C3 & C4).
  split; [intros Q; destruct (Nt Q)|]. split; [exact C2|]. split; [exact C3|exact C4].
Qed.
Lemma load_bare : forall d e ifname hostname s d', reach d -> 0 <= fst (e_now e) -> sized_ifs e ifname -> load d e ifname hostname s = Ok d' -> bare_recs (R d) -> reach d' /\ bare_recs (R d').
Proof.
  intros d e ifname hostname s d' K T Zf E B. unfold load in E.
  assert (Np : ~ texty QTYPE_PTR) by (unfold texty, QTYPE_PTR, QTYPE_TXT, QTYPE_A, QTYPE_AAAA; lia). assert (Nc : ~ texty QTYPE_CNAME) by (unfold texty, QTYPE_CNAME, QTYPE_TXT, QTYPE_A, QTYPE_AAAA; lia).
  destruct (named_bare d e (tlocal s) DISCO_NAME QTYPE_PTR 120 K T u32_120 Np B) as (d1 & r1 & E1 & K1 & B1). rewrite E1 in E. cbn [bind] in E.
  destruct (named_bare d1 e (hlocal s hostname) (tlocal s) QTYPE_PTR 120 K1 T u32_120 Np B1) as (d2 & r2 & E2 & K2 & B2). rewrite E2 in E. cbn [bind] in E.
  destruct (own_bare d2 e (hlocal s hostname) QTYPE_SRV 120 K2 T u32_120 B2) as (d3 & r3 & X3 & E3 & K3 & B3 & EX3 & T3). rewrite E3 in E. cbn [bind] in E.
  apply bind_ok in E as ([d4 x4] & E4 & E).
  assert (K4 : reach d4) by (eapply reach_step; [exact K3| |exact E4]; split; [exact T|unfold live, record in *; congruence]).
  assert (B4 : bare_recs (R d4)).
  { apply (sets_bare d3 e (OSetSrv r3 0 0 (s_port s mod 65536) (tgtlocal s hostname)) d4 x4 r3 (fun a => put_host (tgtlocal s hostname) (put_srv 0 0 (s_port s mod 65536) a)) X3 eq_refl E4 EX3); [|exact B3]. intros (C1 & C2 & C3 & C4). split; [|split; [|split; [|exact C4]]].
    - intros Q. cbn in Q. rewrite T3 in Q. unfold texty, QTYPE_SRV, QTYPE_TXT, QTYPE_A, QTYPE_AAAA in Q. lia.
    - exact C2.
    - exact C3. }
  destruct (own_bare d4 e (tgtlocal s hostname) QTYPE_A 120 K4 T u32_120 B4) as (d5 & r5 & X5 & E5 & K5 & B5 & _). rewrite E5 in E. cbn [bind] in E.
  destruct (own_bare d5 e (tgtlocal s hostname) QTYPE_AAAA 120 K5 T u32_120 B5) as (d6 & r6 & X6 & E6 & K6 & B6 & _). rewrite E6 in E. cbn [bind] in E.
  apply bind_ok in E as ([d7 x7] & E7 & E). assert (K7 : reach d7) by (eapply reach_step; [exact K6| |exact E7]; split; [exact T|exact I]). pose proof (ifaddrs_bare _ _ _ _ _ E7 Zf B6) as B7.
  apply bind_ok in E as (d8 & E8 & E).
  assert (P8 : reach d8 /\ bare_recs (R d8)).
  { destruct (s_cname s) as [c|]; [|injection E8 as <-; auto]. destruct (named_bare d7 e (tgtlocal s hostname) (fqdn c) QTYPE_CNAME 120 K7 T u32_120 Nc B7) as (d8' & r8 & E8' & K8 & B8). rewrite E8' in E8. cbn [bind] in E8. injection E8 as <-. auto. }
  destruct P8 as [K8 B8]. destruct (own_bare d8 e (hlocal s hostname) QTYPE_TXT 4500 K8 T u32_4500 B8) as (d9 & r9 & X9 & E9 & K9 & B9 & EX9 & T9). rewrite E9 in E. cbn [bind] in E.
  apply bind_ok in E as (p & _ & E). apply bind_ok in E as ([d10 x10] & E10 & E). injection E as <-.
  split; [eapply reach_step; [exact K9| |exact E10]; split; [exact T|unfold live, record in *; congruence]|].
  apply (sets_bare d9 e (OSetRaw r9 p) d10 x10 r9 (put_raw p) X9 eq_refl E10 EX9); [|exact B9]. intros (C1 & C2 & C3 & C4). split; [exact C1|]. split; [|split; [exact C3|exact C4]].
  intros Q. unfold addrt in Q. cbn in Q. rewrite T9 in Q. unfold QTYPE_TXT, QTYPE_A, QTYPE_AAAA in Q. lia.
Qed.
Lemma load_files_bare : forall l d e ifname hostname d', reach d -> 0 <= fst (e_now e) -> sized_ifs e ifname -> load_files d e ifname hostname l = Ok d' -> bare_recs (R d) -> bare_recs (R d').
Proof.
  induction l as [|s l IH]; intros d e ifname hostname d' K T Zf E B; cbn [load_files] in E; [injection E as <-; exact B|]. apply bind_ok in E as (d1 & E1 & E).
  destruct (load_bare d e ifname hostname s d1 K T Zf E1 B) as [K1 B1]. exact (IH d1 e ifname hostname d' K1 T Zf E B1).
Qed.

(* ------------------------------------------------------------------ *)
(* TXT data *)
Lemma sum_ge : forall l, (forall x, In x l -> 0 <= x) -> 0 <= sum l.
Proof. induction l as [|x l IH]; intros A; unfold sum in *; cbn [fold_right]; [lia|]. pose proof (A x (or_introl eq_refl)). pose proof (IH (fun y I => A y (or_intror I))). lia. Qed.
Lemma sum_cons : forall x l, sum (x :: l) = x + sum l.
Proof. reflexivity. Qed.
Lemma sum_remove : forall (A : Type) (f : A -> Z) l1 x l2, sum (map f (l1 ++ x :: l2)) = f x + sum (map f (l1 ++ l2)).
Proof. intros A f l1 x l2. induction l1 as [|y l1 IH]; cbn [app map]; rewrite !sum_cons; [reflexivity|]. rewrite IH. lia. Qed.
Lemma sum_incl : forall (A : Type) (f : A -> Z) l l', (forall x, 0 <= f x) -> NoDup l -> incl l l' -> sum (map f l) <= sum (map f l').
Proof.
  intros A f l. induction l as [|x l IH]; intros l' F N Ic; cbn [map]; [apply sum_ge; intros y I; apply in_map_iff in I as (z & <- & _); apply F|]. apply NoDup_cons_iff in N as [N1 N2].
  destruct (in_split x l' (Ic x (or_introl eq_refl))) as (l1 & l2 & ->). rewrite sum_remove, sum_cons. apply Z.add_le_mono_l. apply IH; [exact F|exact N2|]. intros y I. specialize (Ic y (or_intror I)). apply in_app_iff. apply in_app_iff in Ic as [Ic|[->|Ic]]; auto. contradiction.
Qed.
Lemma txt_fits : forall lines raw, txt_holds lines raw -> (forall t, In t lines -> byte_list t) -> (forall t, In t lines -> zlen t <= 255) -> sum (map (fun t => len t + 1) lines) < 65535 -> byte_list raw /\ len raw < 65536 /\ len raw <= Z.max 1 (sum (map (fun t => len t + 1) lines)).
Proof.
  intros lines raw (pairs & Nd & Hp & ->) Bl Sh Sm.
  assert (Ln : forall k v, In (k, v) pairs -> In (k ++ 61 :: v) lines /\ ~ In 61 k).
  { intros k v I. apply Hp in I. destruct (map_of_lines lines fm_empty k v I) as [Q|(t & It & I61 & -> & ->)]; [discriminate Q|]. rewrite <- (until_after t I61). split; [exact It|apply until_not_in]. }
  assert (At : forall k v, len (attr_string k v) <= len (k ++ 61 :: v) /\ (byte_list (k ++ 61 :: v) -> byte_list (attr_string k v))).
  { intros k v. unfold attr_string, len. destruct v as [|c v]; [|split; [lia|auto]]. rewrite app_length. cbn [length]. split; [lia|]. intros K. unfold byte_list in *. apply Forall_app in K. apply K. }
  assert (Dt : byte_list (txt_data (map (fun p => attr_string (fst p) (snd p)) pairs)) /\ len (txt_data (map (fun p => attr_string (fst p) (snd p)) pairs)) <= sum (map (fun t => len t + 1) (map (fun p => fst p ++ 61 :: snd p) pairs))).
  { clear Nd Hp Sm. induction pairs as [|[k v] pairs IH]; [split; [constructor|unfold len, sum; cbn; lia]|]. destruct IH as [IH1 IH2]; [intros k' v' I; apply Ln; right; exact I|].
    destruct (Ln k v (or_introl eq_refl)) as [It _]. destruct (At k v) as [A1 A2]. specialize (A2 (Bl _ It)). specialize (Sh _ It). unfold zlen in Sh.
    unfold txt_data in *. cbn [map flat_map fst snd]. rewrite sum_cons. split.
    - cbn [app]. constructor; [|apply Forall_app; split; assumption]. unfold len in *. lia.
    - unfold len in *. cbn [app length]. rewrite app_length. lia. }
  assert (Tot : len (txt_data (map (fun p => attr_string (fst p) (snd p)) pairs)) <= sum (map (fun t => len t + 1) lines)).
  { destruct Dt as [_ Dt]. eapply Z.le_trans; [exact Dt|]. apply sum_incl; [intros x; unfold len; lia| |].
    - clear - Nd Ln. assert (Nk : forall k v, In (k, v) pairs -> ~ In 61 k) by (intros k v I; apply (Ln k v I)). clear Ln. induction pairs as [|[k v] pairs IH]; cbn [map fst snd] in *; [constructor|]. apply NoDup_cons_iff in Nd as [N1 N2]. constructor; [|apply IH; [exact N2|intros k' v' I; apply (Nk k' v'); right; exact I]].
      intros I. apply in_map_iff in I as ([k' v'] & Eq & I). cbn [fst snd] in Eq. apply N1. apply in_map_iff. exists (k', v'). split; [|exact I]. cbn [fst].
      rewrite <- (until_app 61 k v (Nk k v (or_introl eq_refl))), <- Eq. symmetry. apply until_app. apply (Nk k' v'). right. exact I.
    - intros t I. apply in_map_iff in I as ([k v] & <- & I). apply (Ln k v I). }
  destruct pairs as [|p pairs]; [split; [repeat constructor; lia|]; split; [unfold len; cbn; lia|]; change (len [0]) with 1; lia|]. split; [apply Dt|]. split; lia.
Qed.

(* ------------------------------------------------------------------ *)
(* Records that a message can tell *)
Definition sound_record (a : answer) : Prop := good_name (a_name a) /\ u16 (a_type a) /\ forall sec cl, u16 cl -> sound_item local_label (IRecord sec (a_name a) (a_type a) cl (a_ttl a) (a_copy a)).
Lemma good_meta : good_name meta.
Proof.
  exists [ascii_text "_services"; ascii_text "_dns-sd"; ascii_text "_udp"; ascii_text "local"]. split; [reflexivity|]. split.
  - split; [discriminate|]. split; [|vm_compute; discriminate]. repeat (apply Forall_cons; [split; [split; vm_compute; discriminate|]; vm_compute; repeat constructor; discriminate|]). constructor.
  - exists [ascii_text "_services"; ascii_text "_dns-sd"; ascii_text "_udp"]. split; [reflexivity|]. intros [Q|[Q|[Q|[]]]]; vm_compute in Q; discriminate Q.
Qed.
Lemma nonzero : forall ip, (exists c, In c ip /\ c <> 0) -> is_zero ip = false.
Proof.
  intros ip (c & I & N). apply not_true_iff_false. intros Q. unfold is_zero in Q. rewrite forallb_forall in Q. specialize (Q c I). apply Z.eqb_eq in Q. contradiction.
Qed.
Lemma sound_name_record : forall n ty ttl to, good_name n -> good_name to -> In ty [2; 5; 12] -> u32 ttl -> forall sec cl, u16 cl -> sound_item local_label (IRecord sec n ty cl ttl [MName to]).
Proof.
  intros n ty ttl to (l & -> & L1 & L2) (l' & -> & L3 & L4) Ty U sec cl Uc. right. exists sec, (mkrr l ty cl ttl (RName l')). split; [reflexivity|]. split.
  - split; [unfold u16; cbn in *; lia|]. split; [exact Uc|]. split; [exact U|exact Ty].
  - intros x [<-|[<-|[]]]; auto.
Qed.
Lemma part_sound : forall ifs ifname hostname l s a, carried ifs ifname hostname l -> (forall t, In t (s_txt s) -> zlen t <= 255) -> In s l -> part_of ifs ifname hostname s a -> bare a -> sound_record a.
Proof.
  intros ifs ifname hostname l s a Ca Sh Is P (B1 & B2 & B3 & B4 & _).
  assert (Gt : good_name (service_type s)) by (apply (ca_names _ _ _ _ Ca s _ Is); left; reflexivity). assert (Gi : good_name (instance hostname s)) by (apply (ca_names _ _ _ _ Ca s _ Is); right; left; reflexivity).
  assert (Gg : good_name (target hostname s)) by (apply (ca_names _ _ _ _ Ca s _ Is); right; right; left; reflexivity). assert (Ga : forall c, In c (aliases s) -> good_name c) by (intros c I; apply (ca_names _ _ _ _ Ca s _ Is); right; right; right; exact I).
  destruct P as [(P1 & P2 & P3 & P4)|[(P1 & P2 & P3 & P4)|[(P1 & P2 & P3 & P4 & P5 & P6 & P7)|[(P1 & P2 & P3 & raw & P4 & P5)|[(c & Ic & P1 & P2 & P3 & P4)|(P1 & P2 & P3)]]]]]; unfold sound_record, a_copy.
  - rewrite P1, P2, P3. split; [exact good_meta|]. split; [split; [vm_compute; discriminate|reflexivity]|]. cbn [Z.eqb QTYPE_PTR QTYPE_SRV]. apply sound_name_record; auto using good_meta. vm_compute. auto.
  - rewrite P1, P2, P3. split; [exact Gt|]. split; [split; [vm_compute; discriminate|reflexivity]|]. cbn [Z.eqb QTYPE_PTR QTYPE_SRV]. apply sound_name_record; auto. vm_compute. auto.
  - rewrite P1, P2, P3, P4, P5, P6. split; [exact Gi|]. split; [split; [vm_compute; discriminate|reflexivity]|]. intros sec cl Uc. rewrite Z.eqb_refl. destruct Gi as (li & -> & L1 & L2). destruct Gg as (lg & -> & L3 & L4).
    right. exists sec, (mkrr li 33 cl (a_ttl a) (RSrv 0 0 (s_port s mod 65536) lg)). split; [reflexivity|]. split.
    + split; [split; [vm_compute; discriminate|reflexivity]|]. split; [exact Uc|]. split; [exact B4|]. split; [reflexivity|]. pose proof (Z.mod_pos_bound (s_port s) 65536 ltac:(lia)). unfold u16. lia.
    + intros x [<-|[<-|[]]]; auto.
  - rewrite (B1 (or_introl P2)), P4. rewrite P1, P2. split; [exact Gi|]. split; [split; [vm_compute; discriminate|reflexivity]|]. cbn [Z.eqb QTYPE_TXT QTYPE_SRV]. intros sec cl Uc. destruct Gi as (li & -> & L1 & L2).
    destruct (txt_fits (s_txt s) raw P5 (fun t It => ca_lines _ _ _ _ Ca s t Is It) Sh (ca_text _ _ _ _ Ca s Is)) as [F1 [F2 _]].
    right. exists sec, (mkrr li 16 cl (a_ttl a) (RRaw raw)). split; [reflexivity|]. split; [|intros x [<-|[]]; auto].
    split; [split; [vm_compute; discriminate|reflexivity]|]. split; [exact Uc|]. split; [exact B4|]. split; [exact F1|]. split; [exact F2|]. split; [cbn; lia|split; discriminate].
  - rewrite P1, P2, P3. split; [exact (Ga c Ic)|]. split; [split; [vm_compute; discriminate|reflexivity]|]. cbn [Z.eqb QTYPE_CNAME QTYPE_SRV]. apply sound_name_record; auto. vm_compute. auto.
  - assert (Ad : addrt a) by (unfold addrt; tauto). rewrite (B2 Ad). destruct P3 as [[P3 P4]|[P3 P4]].
    + rewrite (B1 (or_intror (or_introl P3))). rewrite P1, P3. split; [exact Gg|]. split; [split; [vm_compute; discriminate|reflexivity]|]. cbn [Z.eqb QTYPE_A QTYPE_SRV]. destruct (ca_ip4 _ _ _ _ Ca _ P4) as (I1 & I2 & I3). rewrite (nonzero _ I3). cbn [negb].
      intros sec cl Uc. destruct Gg as (lg & -> & L1 & L2). right. exists sec, (mkrr lg 1 cl (a_ttl a) (RAddr4 (a_ip a))). split; [reflexivity|]. split; [|intros x [<-|[]]; auto].
      split; [split; [vm_compute; discriminate|reflexivity]|]. split; [exact Uc|]. split; [exact B4|]. split; [reflexivity|]. split; assumption.
    + rewrite (B1 (or_intror (or_intror P3))), (B3 P3). rewrite P1, P3. split; [exact Gg|]. split; [split; [vm_compute; discriminate|reflexivity]|]. cbn [Z.eqb QTYPE_AAAA QTYPE_SRV]. destruct (ca_ip6 _ _ _ _ Ca _ P4) as (I1 & I2 & I3). rewrite (nonzero _ I3). cbn [negb].
      intros sec cl Uc. destruct Gg as (lg & -> & L1 & L2). right. exists sec, (mkrr lg 28 cl (a_ttl a) (RAddr6 (a_ip6 a))). split; [reflexivity|]. split; [|intros x [<-|[]]; auto].
      split; [split; [vm_compute; discriminate|reflexivity]|]. split; [exact Uc|]. split; [exact B4|]. split; [reflexivity|]. split; assumption.
Qed.

Lemma carried_sized : forall e ifs ifname hostname l, e_ifs e = Some ifs -> carried ifs ifname hostname l -> sized_ifs e ifname.
Proof. intros e ifs ifname hostname l Ei Ca l' ip E. rewrite Ei in E. injection E as <-. split; intros I; [exact (proj1 (ca_ip4 _ _ _ _ Ca ip I))|exact (proj1 (ca_ip6 _ _ _ _ Ca ip I))]. Qed.
Definition all_sound (d : daemon) : Prop := forall r X, record d r X -> sound_record (rr X).
Lemma loaded_sound : forall d e ifs ifname hostname l, reach d -> (forall r X, ~ record d r X) -> 0 <= fst (e_now e) -> e_ifs e = Some ifs -> well_named hostname l -> apart hostname l -> carried ifs ifname hostname l ->
  exists d', load_files d e ifname hostname l = Ok d' /\ reach d' /\ all_sound d'.
Proof.
  intros d e ifs ifname hostname l K N T Ei W Ap Ca. destruct (services d e ifs ifname hostname l K N T Ei W Ap) as (d' & E & K' & _ & P & _). exists d'. split; [exact E|]. split; [exact K'|].
  intros r X EX. destruct (P r X EX) as (s & Is & Ps). apply (part_sound ifs ifname hostname l s _ Ca (fun t It => proj1 (wn_lines _ _ W s t Is It)) Is Ps).
  apply (load_files_bare l d e ifname hostname d' K T (carried_sized _ _ _ _ _ Ei Ca) E (fun x Y EY => False_ind _ (N x Y EY)) r X EX).
Qed.

(* Serving keeps them *)
Lemma withdrawn_sound : forall a b, same_or_withdrawn a b -> sound_record b -> sound_record a.
Proof.
  intros a b Sw (S1 & S2 & S3). pose proof (copy_withdrawn a b Sw) as Cp. destruct Sw as (A1 & A2 & _ & _ & _ & _ & _ & _ & _ & A3). unfold sound_record. rewrite A1, A2, Cp. split; [exact S1|]. split; [exact S2|]. intros sec cl Uc. specialize (S3 sec cl Uc).
  destruct A3 as [-> | ->]; [exact S3|]. destruct S3 as [(q & Q & _)|(sec' & r & Q & (L1 & L2 & L3 & L4) & Nm)]; [discriminate Q|]. right. exists sec', (mkrr (owner r) (rtype r) (rclass r) 0 (data r)). unfold item_of in *. cbn [owner rtype rclass rttl data]. injection Q as Q1 Q2 Q3 Q4 Q5 Q6. rewrite Q1, Q2, Q3, Q4, Q6.
  split; [reflexivity|]. split; [|exact Nm]. split; [exact L1|]. split; [exact L2|]. split; [split; [cbn; lia|reflexivity]|exact L4].
Qed.
Lemma step_sound : forall d e o d' x, reach d -> legal d e o -> step d e o = Ok (d', x) -> leaves_data o -> all_sound d -> all_sound d'.
Proof.
  intros d e o d' x K L E Ld As r Y EY. destruct (step_no_new d e o d' x r Y K L E) as (X & EX); [destruct o; cbn [leaves_data maker] in *; tauto|exact EY|].
  pose proof (step_given d e o d' x r X Y K L E EX EY) as G. apply (withdrawn_sound _ _ G). replace (given r (rr X) _) with (rr X); [exact (As r X EX)|]. unfold given. cbn [ev_call]. destruct o; try reflexivity; destruct Ld.
Qed.
Lemma serving_sound : forall h d d', reach d -> history d h d' -> serving h -> all_sound d -> all_sound d'.
Proof.
  intros h d d' K Hh. induction Hh as [|h d1 e o x d2 Hh IH L E]; intros Sv As; [exact As|]. apply Forall_app in Sv as [Sv Sl]. inversion Sl; subst. eapply step_sound; [exact (history_reach _ _ _ K Hh)|exact L|exact E|assumption|exact (IH Sv As)].
Qed.

(* The messages *)
Lemma sound_shown : forall X sec cls, sound_record (rr X) -> 0 <= cls < 32768 -> sound_item local_label (shown sec cls X) /\ sound_item local_label (shown sec (flushing cls X) X).
Proof.
  intros X sec cls (_ & _ & Sn) C. split; apply Sn; unfold u16; [lia|]. unfold flushing. destruct (_ =? _); lia.
Qed.
Lemma messages_sound : forall d e d' m n, reach d -> legal d e OOut -> step d e OOut = Ok (d', RMsg m n) -> o_qr m = true -> 0 <= class d < 32768 -> all_sound d -> forall i, says m i -> sound_item local_label i.
Proof.
  intros d e d' m n K L E Qr C As i Si. unfold says in Si. destruct (uans (R d)) as [|u us] eqn:U.
  - destruct (response_lists d e d' m n K L U E Qr) as (L0 & E0 & Ei & _ & _ & HL & HE & _). rewrite Ei in Si. apply in_app_iff in Si as [I|I]; apply in_map_iff in I as ([r X] & <- & I).
    + destruct (HL r X I) as (EX & _). exact (proj2 (sound_shown X SAn (class d) (As r X EX) C)).
    + destruct (HE r X I) as (_ & (X0 & EX0 & Er & _) & _). apply (proj2 (sound_shown X SAr (class d) ltac:(rewrite <- Er; exact (As r X0 EX0)) C)).
  - destruct (unicast_lists d e d' m n u us K L U E) as (X & E0 & EX & _ & Ei & HE & _). rewrite Ei in Si. destruct Si as [<-|[<-|I]].
    + destruct (As _ X EX) as ((l & En & L1 & L2) & Ty & _). left. exists (mkquest l (a_type (rr X)) (class d)). rewrite En. split; [reflexivity|]. split; [split; [exact Ty|unfold u16; cbn [qclass]; lia]|]. split; assumption.
    + apply sound_shown; [exact (As _ X EX)|exact C].
    + apply in_map_iff in I as ([r Y] & <- & I). destruct (HE r Y I) as (EY & _). exact (proj2 (sound_shown Y SAr (class d) (As r Y EY) C)).
Qed.

Lemma services_told : forall d0 e0 ifs ifname hostname l, reach d0 -> (forall r X, ~ record d0 r X) -> 0 <= fst (e_now e0) -> e_ifs e0 = Some ifs -> well_named hostname l -> apart hostname l -> carried ifs ifname hostname l ->
  exists d1, load_files d0 e0 ifname hostname l = Ok d1 /\ reach d1 /\
  forall h d, history d1 h d -> serving h -> 0 <= class d < 32768 ->
  forall e d' m n, legal d e OOut -> step d e OOut = Ok (d', RMsg m n) -> o_qr m = true -> forall i, says m i -> sound_item local_label i.
Proof.
  intros d0 e0 ifs ifname hostname l K N T Ei W Ap Ca. destruct (loaded_sound d0 e0 ifs ifname hostname l K N T Ei W Ap Ca) as (d1 & E1 & K1 & A1). exists d1. split; [exact E1|]. split; [exact K1|].
  intros h d Hh Sv C e d' m n L E Qr. exact (messages_sound d e d' m n (history_reach _ _ _ K1 Hh) L E Qr C (serving_sound h d1 d K1 Hh Sv A1)).
Qed.
Lemma services_heard : forall d0 e0 ifs ifname hostname l, reach d0 -> (forall r X, ~ record d0 r X) -> 0 <= fst (e_now e0) -> e_ifs e0 = Some ifs -> well_named hostname l -> apart hostname l -> carried ifs ifname hostname l ->
  exists d1, load_files d0 e0 ifname hostname l = Ok d1 /\
  forall h d, history d1 h d -> serving h -> 0 <= class d < 32768 ->
  forall e d' m n, legal d e OOut -> step d e OOut = Ok (d', RMsg m n) -> o_qr m = true -> u16 (o_id m) -> small_enough m ->
  forall d2 e2 from, reach d2 -> 0 <= fst (e_now e2) -> is_shutdown d2 = false -> foreign d2 e2 from ->
  exists d2', process_in d2 [(e2, Datagram (snd (packet_of m)) from)] = Ok (d2', 0) /\ reach d2' /\
    (forall X, gives (class d2) m X -> a_ttl (rr X) <> 0 -> set_by_type (rr X) -> exists c, cache_holds d2' c /\ same_content (c_rr c) (rr X) /\ fst (e_now e2) < a_ttl (c_rr c)) /\
    (forall X y, SpecHear.shows m X -> a_ttl (rr X) <> 0 -> set_by_type (rr X) -> (forall k, e_cb e2 k = false) -> registered d2 y -> is_for y (a_name (rr X)) (a_type (rr X)) ->
       (forall c, cache_holds d2 c -> ~ same_content (c_rr c) (rr X)) -> exists T v, told (Q d2') = told (Q d2) ++ T /\ In (q_cb y, v) T /\ same_content v (rr X) /\ fst (e_now e2) < a_ttl v).
Proof.
  intros d0 e0 ifs ifname hostname l K N T Ei W Ap Ca. destruct (services_told d0 e0 ifs ifname hostname l K N T Ei W Ap Ca) as (d1 & E1 & K1 & H1). exists d1. split; [exact E1|].
  intros h d Hh Sv C e d' m n L E Qr Id Sz. exact (delivered d e d' m n local_label (history_reach _ _ _ K1 Hh) L E (conj Id (conj (H1 h d Hh Sv C e d' m n L E Qr) Sz)) Qr).
Qed.

(* What keeps multicast responses small *)
Definition modest (a : answer) : Prop := sized a /\ forall dt, a_copy a = [MRaw dt] -> zlen dt <= 2660.
Definition all_modest (d : daemon) : Prop := forall r X, record d r X -> modest (rr X).
Lemma part_modest : forall ifs ifname hostname s a, (forall t, In t (s_txt s) -> byte_list t) -> (forall t, In t (s_txt s) -> zlen t <= 255) -> sum (map (fun t => len t + 1) (s_txt s)) <= 2660 -> part_of ifs ifname hostname s a -> bare a -> modest a.
Proof.
  intros ifs ifname hostname s a By Sh Sm P (B1 & B2 & B3 & B4 & Sz). split; [exact Sz|]. intros dt Ec. unfold a_copy in Ec.
  destruct P as [(P1 & P2 & P3 & P4)|[(P1 & P2 & P3 & P4)|[(P1 & P2 & P3 & P4 & P5 & P6 & P7)|[(P1 & P2 & P3 & raw & P4 & P5)|[(c & Ic & P1 & P2 & P3 & P4)|(P1 & P2 & P3)]]]]].
  - rewrite P3, P2 in Ec. discriminate Ec.
  - rewrite P3, P2 in Ec. discriminate Ec.
  - rewrite P2, Z.eqb_refl in Ec. discriminate Ec.
  - rewrite (B1 (or_introl P2)), P4, P2 in Ec. injection Ec as <-. destruct (txt_fits (s_txt s) raw P5 By Sh ltac:(lia)) as (_ & _ & F). unfold len, zlen in *. lia.
  - rewrite P3, P2 in Ec. discriminate Ec.
  - assert (Ad : addrt a) by (unfold addrt; tauto). rewrite (B2 Ad) in Ec. destruct (a_rdname a); destruct (a_type a =? QTYPE_SRV); try discriminate Ec. destruct (negb _); [discriminate Ec|]. destruct (negb _); discriminate Ec.
Qed.
Lemma loaded_modest : forall d e ifs ifname hostname l d', reach d -> (forall r X, ~ record d r X) -> 0 <= fst (e_now e) -> e_ifs e = Some ifs -> well_named hostname l -> apart hostname l -> carried ifs ifname hostname l ->
  (forall s, In s l -> sum (map (fun t => len t + 1) (s_txt s)) <= 2660) -> load_files d e ifname hostname l = Ok d' -> all_modest d'.
Proof.
  intros d e ifs ifname hostname l d' K N T Ei W Ap Ca Tx E. destruct (services d e ifs ifname hostname l K N T Ei W Ap) as (d1 & E1 & _ & _ & P & _). rewrite E in E1. injection E1 as <-.
  intros r X EX. destruct (P r X EX) as (s & Is & Ps). apply (part_modest ifs ifname hostname s _ (fun t It => ca_lines _ _ _ _ Ca s t Is It) (fun t It => proj1 (wn_lines _ _ W s t Is It)) (Tx s Is) Ps).
  apply (load_files_bare l d e ifname hostname d' K T (carried_sized _ _ _ _ _ Ei Ca) E (fun x Y EY => False_ind _ (N x Y EY)) r X EX).
Qed.
Lemma withdrawn_modest : forall a b, same_or_withdrawn a b -> modest b -> modest a.
Proof.
  intros a b Sw (S1 & S2). unfold modest. rewrite (copy_withdrawn a b Sw). split; [|exact S2]. unfold same_or_withdrawn in Sw. unfold sized in *. intuition congruence.
Qed.
Lemma serving_modest : forall h d d', reach d -> history d h d' -> serving h -> all_modest d -> all_modest d'.
Proof.
  intros h d d' K Hh. induction Hh as [|h d1 e o x d2 Hh IH L E]; intros Sv As; [exact As|]. apply Forall_app in Sv as [Sv Sl]. inversion Sl as [|? ? Ld _]; subst. cbn [ev_call] in Ld. specialize (IH Sv As). pose proof (history_reach _ _ _ K Hh) as K1.
  intros r Y EY. destruct (step_no_new d1 e o d2 x r Y K1 L E) as (X & EX); [destruct o; cbn [leaves_data maker] in *; tauto|exact EY|].
  pose proof (step_given d1 e o d2 x r X Y K1 L E EX EY) as G. apply (withdrawn_modest _ _ G). replace (given r (rr X) _) with (rr X); [exact (IH r X EX)|]. unfold given. cbn [ev_call]. destruct o; try reflexivity; destruct Ld.
Qed.
Lemma modest_small : forall d e d' m n, reach d -> legal d e OOut -> uans (R d) = [] -> step d e OOut = Ok (d', RMsg m n) -> o_qr m = true -> all_modest d -> frame d <= 1174 -> small_enough m.
Proof.
  intros d e d' m n K L U E Qr Am Fr. right. split.
  - pose proof (response_size d e d' m n U (fun r X EX => proj1 (Am r X EX)) E Qr) as B.
    assert (P12 : 12 <= packet_len (encode (o_calls m))) by (exact (proj1 (mlen_upper (o_calls m)))). unfold packet_of. cbn [snd]. rewrite header_len by exact P12. lia.
  - intros sec nm ty cl ttl dt Si. destruct (response_lists d e d' m n K L U E Qr) as (L0 & E0 & Ei & _ & _ & HL & HE & _). unfold says in Si. rewrite Ei in Si. apply in_app_iff in Si as [I|I]; apply in_map_iff in I as ([r X] & Eq & I).
    + destruct (HL r X I) as (EX & _). unfold as_answer, shown in Eq. cbn [snd] in Eq. injection Eq as _ _ _ _ _ Ec. exact (proj2 (Am r X EX) dt Ec).
    + destruct (HE r X I) as (_ & (X0 & EX0 & Er & _) & _). unfold as_extra, shown in Eq. cbn [snd] in Eq. injection Eq as _ _ _ _ _ Ec. rewrite <- Er in Ec. exact (proj2 (Am r X0 EX0) dt Ec).
Qed.
Lemma services_multicast : forall d0 e0 ifs ifname hostname l, reach d0 -> (forall r X, ~ record d0 r X) -> 0 <= fst (e_now e0) -> e_ifs e0 = Some ifs -> well_named hostname l -> apart hostname l -> carried ifs ifname hostname l ->
  (forall s, In s l -> sum (map (fun t => len t + 1) (s_txt s)) <= 2660) ->
  exists d1, load_files d0 e0 ifname hostname l = Ok d1 /\
  forall h d, history d1 h d -> serving h -> 0 <= class d < 32768 -> frame d <= 1174 -> uans (R d) = [] ->
  forall e d' m n, legal d e OOut -> step d e OOut = Ok (d', RMsg m n) -> o_qr m = true ->
  forall d2 e2 from, reach d2 -> 0 <= fst (e_now e2) -> is_shutdown d2 = false -> foreign d2 e2 from ->
  exists d2', process_in d2 [(e2, Datagram (snd (packet_of m)) from)] = Ok (d2', 0) /\ reach d2' /\
    (forall X, gives (class d2) m X -> a_ttl (rr X) <> 0 -> set_by_type (rr X) -> exists c, cache_holds d2' c /\ same_content (c_rr c) (rr X) /\ fst (e_now e2) < a_ttl (c_rr c)) /\
    (forall X y, SpecHear.shows m X -> a_ttl (rr X) <> 0 -> set_by_type (rr X) -> (forall k, e_cb e2 k = false) -> registered d2 y -> is_for y (a_name (rr X)) (a_type (rr X)) ->
       (forall c, cache_holds d2 c -> ~ same_content (c_rr c) (rr X)) -> exists T v, told (Q d2') = told (Q d2) ++ T /\ In (q_cb y, v) T /\ same_content v (rr X) /\ fst (e_now e2) < a_ttl v).
Proof.
  intros d0 e0 ifs ifname hostname l K N T Ei W Ap Ca Tx. destruct (services_told d0 e0 ifs ifname hostname l K N T Ei W Ap Ca) as (d1 & E1 & K1 & H1). exists d1. split; [exact E1|].
  intros h d Hh Sv C Fr U e d' m n L E Qr. pose proof (loaded_modest d0 e0 ifs ifname hostname l d1 K N T Ei W Ap Ca Tx E1) as Am. pose proof (serving_modest h d1 d K1 Hh Sv Am) as Am'. pose proof (history_reach _ _ _ K1 Hh) as Kd.
  assert (Id : u16 (o_id m)) by (destruct (out_to d e d' m n Kd L E) as [(_ & _ & ->)|(u & us & X & Eu & _)]; [split; [vm_compute; discriminate|reflexivity]|congruence]).
  exact (delivered d e d' m n local_label Kd L E (conj Id (conj (H1 h d Hh Sv C e d' m n L E Qr) (modest_small d e d' m n Kd L U E Qr Am' Fr))) Qr).
Qed.

(* ---- for the examples ---- *)
Definition labelb (l : label) : bool := (0 <? len l) && (len l <=? 63) && forallb (fun c => (0 <? c) && (c <? 256) && negb (c =? 46)) l.
Definition goodb (l : list label) : bool :=
  forallb labelb l && (len (dotted l) <=? 255) && forallb (fun x => negb (if list_eq_dec Z.eq_dec x local_label then true else false)) (removelast l) &&
  (if list_eq_dec Z.eq_dec (last l []) local_label then true else false).
Lemma good_by : forall l, goodb l = true -> good_name (dotted l).
Proof.
  intros l B. exists l. split; [reflexivity|]. unfold goodb in B. apply andb_true_iff in B as [B B4]. apply andb_true_iff in B as [B B3]. apply andb_true_iff in B as [B1 B2].
  destruct (list_eq_dec Z.eq_dec (last l []) local_label) as [E|]; [|discriminate]. assert (Nn : l <> []) by (intros ->; discriminate E). split.
  - split; [exact Nn|]. split; [|apply Z.leb_le; exact B2]. rewrite forallb_forall in B1. apply Forall_forall. intros x J. specialize (B1 x J). unfold labelb in B1.
    apply andb_true_iff in B1 as [B1 F]. apply andb_true_iff in B1 as [P1 P2]. apply Z.ltb_lt in P1. apply Z.leb_le in P2. rewrite forallb_forall in F.
    unfold legal_label. split; [lia|]. apply Forall_forall. intros c Jc. specialize (F c Jc). apply andb_true_iff in F as [F F3]. apply andb_true_iff in F as [F1 F2]. apply Z.ltb_lt in F1. apply Z.ltb_lt in F2. apply negb_true_iff in F3. apply Z.eqb_neq in F3. lia.
  - exists (removelast l). split; [rewrite <- E; apply app_removelast_last; exact Nn|]. intros J. rewrite forallb_forall in B3. specialize (B3 _ J). destruct (list_eq_dec Z.eq_dec local_label local_label); [discriminate|congruence].
Qed.
Lemma serving_by : forall l d, Forall (fun x => leaves_data (snd x)) l -> serving (recorded d l).
Proof.
  induction l as [|[t o] l IH]; intros d F; cbn [recorded]; [constructor|]. inversion F as [|? ? F1 F2]; subst. destruct (legalb d t o); [|constructor].
  destruct (step d (at_ t) o) as [[d' x]| | |]; try constructor; [exact F1|apply IH; exact F2].
Qed.
