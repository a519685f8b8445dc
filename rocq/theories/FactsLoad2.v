(* Proofs about what the .service files publish. *)
From Verif Require Import Base SpecDns SpecMap SpecTxt Lemmas Hash Xht SdTxt XhtProofs SdTxtProofs Wire Rec Qry Out In Api RecInv RecSafe RecOps RecAddr DaemonInv SpecDaemon SpecAddr FactsCalls FactsAddr Lib Conf Load SpecConf SpecLoad FactsLoad.

(* ------------------------------------------------------------------ *)
(* Names *)
Lemma cut_short : forall s, zlen s <= 255 -> cut255 s = s.
Proof. intros s L. unfold cut255. apply firstn_all2. unfold zlen in L. lia. Qed.
Lemma local_eq : forall n, local n = n ++ S_LOCAL.
Proof. reflexivity. Qed.
Lemma meta_eq : DISCO_NAME = meta.
Proof. vm_compute. reflexivity. Qed.
Lemma tlocal_eq : forall s, zlen (service_type s) <= 255 -> tlocal s = service_type s.
Proof. intros s L. unfold tlocal. apply cut_short. exact L. Qed.
Lemma hlocal_eq : forall hostname s, zlen (instance hostname s) <= 255 -> hlocal s hostname = instance hostname s.
Proof. intros hostname s L. unfold hlocal. apply cut_short. exact L. Qed.
Lemma last_zget : forall (l : list Z), l <> [] -> zget l (zlen l - 1) = last l 0.
Proof.
  intros l N. destruct (exists_last N) as (t & x & ->). rewrite zlen_app, zlen_cons, zlen_nil, last_last. replace (zlen t + (1 + 0) - 1) with (zlen t) by lia. rewrite (zget_app_at _ _ 0) by lia. apply zget_0.
Qed.
Lemma fqdn_eq : forall n, zlen (rooted n) <= 255 -> fqdn n = rooted n.
Proof.
  intros n L. unfold fqdn.
  assert (E : n ++ (if negb (Nat.eqb (length n) 0) && (zget n (zlen n - 1) =? 46) then [] else [46]) = rooted n).
  { unfold rooted. destruct n as [|c n]; [reflexivity|]. rewrite last_zget by discriminate. cbn [length Nat.eqb negb andb].
    destruct (Z.eq_dec (last (c :: n) 0) 46) as [->|D]; [rewrite Z.eqb_refl, app_nil_r; reflexivity|]. apply Z.eqb_neq in D. rewrite D. reflexivity. }
  rewrite E. apply cut_short. exact L.
Qed.
Lemma tgtlocal_eq : forall hostname s, zlen (target hostname s) <= 255 -> tgtlocal s hostname = target hostname s.
Proof. intros hostname s L. unfold tgtlocal, target in *. destruct (s_target s) as [t|]; [apply fqdn_eq; exact L|apply cut_short; exact L]. Qed.

(* ------------------------------------------------------------------ *)
(* TXT data *)
Definition line_ops (l : list (list Z)) : list xop := flat_map (fun t => if existsb (Z.eqb 61) t then [XSet (fst (split_eq t)) (Some (snd (split_eq t)))] else []) l.
Lemma has_eq : forall t, existsb (Z.eqb 61) t = true <-> In 61 t.
Proof. intros t. rewrite existsb_exists. split; [intros (x & I & E); apply Z.eqb_eq in E; subst x; exact I|intros I; exists 61; split; [exact I|reflexivity]]. Qed.
Lemma lines_map : forall l m, fold_left xop_effect (line_ops l) m = fold_left put_line l m.
Proof.
  induction l as [|t l IH]; intros m; [reflexivity|]. unfold line_ops in *. cbn [flat_map fold_left]. rewrite fold_left_app, <- IH. f_equal. unfold put_line.
  destruct (in_dec Z.eq_dec 61 t) as [I|I].
  - apply has_eq in I. rewrite I. cbn [fold_left xop_effect]. rewrite split_eq_spec. reflexivity.
  - destruct (existsb (Z.eqb 61) t) eqn:B; [apply has_eq in B; contradiction|reflexivity].
Qed.
Lemma until_after : forall t, In 61 t -> t = SpecTxt.until 61 t ++ 61 :: SpecTxt.after 61 t.
Proof.
  induction t as [|c t IH]; intros I; [destruct I|]. cbn [SpecTxt.until SpecTxt.after]. destruct (Z.eq_dec c 61) as [->|N]; [reflexivity|]. destruct I as [I|I]; [congruence|]. cbn [app]. f_equal. exact (IH I).
Qed.
Lemma map_of_lines : forall l m k v, fold_left put_line l m k = Some v -> m k = Some v \/ exists t, In t l /\ In 61 t /\ k = SpecTxt.until 61 t /\ v = SpecTxt.after 61 t.
Proof.
  induction l as [|t l IH]; intros m k v E; cbn [fold_left] in E; [auto|]. destruct (IH _ _ _ E) as [K|(t' & I & J)]; [|right; exists t'; split; [right; exact I|exact J]].
  unfold put_line in K. destruct (in_dec Z.eq_dec 61 t) as [I|I]; [|auto]. unfold fm_put in K. destruct (list_eq_dec Z.eq_dec k (SpecTxt.until 61 t)) as [->|N]; [|auto]. right. exists t. injection K as <-. split; [left; reflexivity|]. auto.
Qed.
Lemma until_id : forall c s, ~ In c s -> SpecTxt.until c s = s.
Proof. induction s as [|x s IH]; intros N; [reflexivity|]. cbn [SpecTxt.until]. destruct (Z.eq_dec x c) as [->|D]; [destruct N; left; reflexivity|]. f_equal. apply IH. intros I. apply N. right. exact I. Qed.

Lemma txt_packet : forall l, (forall t, In t l -> zlen t <= 255 /\ ~ In 0 t) -> exists p, sd2txt (txt_table l (xht_new 11)) = Ok p /\ txt_holds l p.
Proof.
  intros l W. destruct (txt_table_run l (xht_new 11) [] eq_refl) as (ops & E & Eo). cbn [app] in Eo. rewrite E. destruct (run_encode 11 ops ltac:(lia)) as (p & pairs & Ep & Nd & Sp & Z & _ & G). exists p. split; [exact Ep|].
  exists pairs. split; [exact Nd|]. assert (Sm : forall k v, In (k, v) pairs <-> txt_map l k = Some v).
  { intros k v. rewrite Sp, run_get by lia. unfold txt_map. rewrite <- lines_map, Eo. reflexivity. }
  split; [exact Sm|]. destruct pairs as [|q pairs]; [apply Z; reflexivity|].
  assert (Ok255 : forall kv, In kv (q :: pairs) -> SpecTxt.until 0 (snd kv) = snd kv /\ zlen (attr_string (fst kv) (snd kv)) <= 255).
  { intros [k v] I. cbn [fst snd]. apply Sm in I. destruct (map_of_lines _ _ _ _ I) as [K|(t & It & I61 & -> & ->)]; [discriminate K|]. destruct (W t It) as [L N]. pose proof (until_after t I61) as Et. split.
    - apply until_id. intros J. apply N. rewrite Et. apply in_app_iff. right. right. exact J.
    - rewrite Et in L. rewrite zlen_app, zlen_cons in L. unfold attr_string. destruct (SpecTxt.after 61 t) as [|c r]; [rewrite zlen_nil in L; lia|]. rewrite zlen_app, (zlen_cons _ 61). lia. }
  rewrite G; [|discriminate|].
  - apply (f_equal txt_data). apply map_ext_in. intros kv I. exact (f_equal (attr_string (fst kv)) (proj1 (Ok255 kv I))).
  - apply Forall_forall. intros kv I. destruct (Ok255 kv I) as [Q1 Q2]. rewrite <- Q1 in Q2. exact Q2.
Qed.

(* ------------------------------------------------------------------ *)
(* mdnsd_set_interface_addresses, when the address records are wanted or new *)
Definition addrt (a : answer) : Prop := a_type a = QTYPE_A \/ a_type a = QTYPE_AAAA.
Definition wanted (l : list ifaddr) (ifname : list Z) (a : answer) : Prop :=
  (a_type a = QTYPE_A /\ on_interface l ifname AF_INET (a_ip a)) \/ (a_type a = QTYPE_AAAA /\ on_interface l ifname AF_INET6 (a_ip6 a)).
Definition goodv (ty : Z) (v : list (list Z)) (h : heap) : Prop := forall x X, h x = Some X -> a_type (rr X) = ty -> a_ttl (rr X) <> 0 /\ (In (addr_of ty (rr X)) v \/ probes X = true).
Lemma updated_good : forall host ty v h h', updated host ty v h h' -> goodv ty v h -> goodv ty v h'.
Proof.
  intros host ty v h h' U G x Y EY T. destruct (h x) as [X|] eqn:EX.
  - pose proof (up_old _ _ _ _ _ U x X EX) as O. destruct (staleb host ty v X) eqn:St.
    + destruct (probes X) eqn:P; [congruence|]. exfalso. apply stale_iff in St as [[_ T'] NI]. destruct (G x X EX T') as [_ [I|I]]; [contradiction|congruence].
    + destruct O as (Z & EZ & NZ). rewrite EY in EZ. injection EZ as <-. apply nolink_fields in NZ as (Er & Eu & _). rewrite Er in *. destruct (G x X EX T) as [A B]. split; [exact A|]. destruct B as [B|B]; [left; exact B|right]. unfold probes in *. rewrite Eu. exact B.
  - destruct (up_new _ _ _ _ _ U x Y EX EY) as (_ & A & _ & B & _). auto.
Qed.
Lemma updated_good' : forall host ty v h h' ty' v', updated host ty v h h' -> ty' <> ty -> goodv ty' v' h -> goodv ty' v' h'.
Proof.
  intros host ty v h h' ty' v' U D G x Y EY T. destruct (proj2 (updated_same _ _ _ _ _ (a_name (rr Y)) ty' U ltac:(intros [_ ?]; contradiction)) x Y EY (conj eq_refl T)) as (X & EX & NX).
  apply nolink_fields in NX as (Er & Eu & _). rewrite Er in *. destruct (G x X EX T) as [A B]. split; [exact A|]. destruct B as [B|B]; [left; exact B|right]. unfold probes in *. rewrite Eu. exact B.
Qed.
Lemma set_hosts_good : forall hosts s qs t v4 v6 s', rinv s qs -> set_hosts s t hosts v4 v6 = Ok s' -> goodv QTYPE_A v4 (hp s) -> goodv QTYPE_AAAA v6 (hp s) -> goodv QTYPE_A v4 (hp s') /\ goodv QTYPE_AAAA v6 (hp s').
Proof.
  assert (NA : QTYPE_A <> QTYPE_AAAA) by (unfold QTYPE_A, QTYPE_AAAA; lia).
  induction hosts as [|n l IH]; intros s qs t v4 v6 s' H E G4 G6; cbn [set_hosts] in E; [injection E as <-; auto|].
  destruct (update_spec s qs t n QTYPE_A v4 ltac:(auto) H) as (s1 & qs1 & E1 & H1 & U1). rewrite E1 in E. cbn [bind] in E.
  destruct (update_spec s1 qs1 t n QTYPE_AAAA v6 ltac:(auto) H1) as (s2 & qs2 & E2 & H2 & U2). rewrite E2 in E. cbn [bind] in E.
  apply (IH s2 qs2 t v4 v6 s' H2 E).
  - apply (updated_good' _ _ _ _ _ _ _ U2 NA). exact (updated_good _ _ _ _ _ U1 G4).
  - apply (updated_good _ _ _ _ _ U2). apply (updated_good' _ _ _ _ _ _ _ U1 (fun q => NA (eq_sym q))). exact G6.
Qed.

Lemma ifaddrs_do : forall d e ifname l, reach d -> 0 <= fst (e_now e) -> e_ifs e = Some l ->
  (forall r X, record d r X -> addrt (rr X) -> a_ttl (rr X) <> 0 /\ (unique X = 1 \/ wanted l ifname (rr X))) ->
  exists d' x, step d e (OSetIfaddrs ifname) = Ok (d', x) /\ reach d' /\
    (forall r X, record d r X -> ~ addrt (rr X) -> exists Y, record d' r Y /\ rr Y = rr X) /\
    (forall r Y, record d' r Y -> ~ addrt (rr Y) -> exists X, record d r X /\ rr Y = rr X) /\
    (forall r Y, record d' r Y -> addrt (rr Y) -> a_ttl (rr Y) <> 0 /\ wanted l ifname (rr Y) /\ exists r0 X0, record d r0 X0 /\ a_name (rr X0) = a_name (rr Y) /\ addrt (rr X0)) /\
    (forall host r0 X0, record d r0 X0 -> a_name (rr X0) = host -> addrt (rr X0) ->
       (forall ip, on_interface l ifname AF_INET ip -> offers d' host QTYPE_A ip) /\ (forall ip, on_interface l ifname AF_INET6 ip -> offers d' host QTYPE_AAAA ip)).
Proof.
  intros d e ifname l K T El G. destruct (reach_do d e (OSetIfaddrs ifname) K) as (d' & x & E & K'); [split; [exact T|exact I]|]. exists d', x. split; [exact E|]. split; [exact K'|].
  destruct (interface_addresses d e ifname l d' x K El E) as (IA & IB & IC).
  assert (Nw : forall host ty, ty = QTYPE_A \/ ty = QTYPE_AAAA -> none_withdrawn d host ty).
  { intros host ty Ty r X (EX & _ & Et) W. destruct (G r X EX) as [A _]; [unfold addrt; rewrite Et; exact Ty|]. exact (A W). }
  destruct (reach_dinv d K) as (qs & H & _).
  assert (V : goodv QTYPE_A (map if_ip (filter (fun i => if_family i =? AF_INET) (filter (fun i => bytes_eqb (if_name i) ifname) l))) (hp (R d')) /\ goodv QTYPE_AAAA (map if_ip (filter (fun i => if_family i =? AF_INET6) (filter (fun i => bytes_eqb (if_name i) ifname) l))) (hp (R d')) /\
    (forall r Y, record d' r Y -> ~ addrt (rr Y) -> exists X, record d r X /\ rr Y = rr X) /\
    (forall r Y, record d' r Y -> addrt (rr Y) -> exists r0 X0, record d r0 X0 /\ a_name (rr X0) = a_name (rr Y) /\ addrt (rr X0))).
  { pose proof E as E0. cbn [step] in E0. rewrite El in E0. unfold on_recs, set_interface_addresses in E0. cbv zeta in E0.
    destruct (host_names_spec (hp (R d)) (concat (pub (R d))) [] (pub_live _ (ri_p _ _ H)) (NoDup_nil _)) as (hosts & Eh & Nh & Sh). rewrite Eh in E0. cbn [bind] in E0.
    match type of E0 with context [set_hosts _ _ _ ?a ?b] => destruct (set_hosts_spec hosts (R d) qs (now d) a b H Nh) as (s' & qs' & Es & H' & Oth & _) end. rewrite Es in E0. cbn [bind] in E0. injection E0 as <- _.
    assert (Gd : goodv QTYPE_A (map if_ip (filter (fun i => if_family i =? AF_INET) (filter (fun i => bytes_eqb (if_name i) ifname) l))) (hp (R d)) /\ goodv QTYPE_AAAA (map if_ip (filter (fun i => if_family i =? AF_INET6) (filter (fun i => bytes_eqb (if_name i) ifname) l))) (hp (R d))).
    { split; intros r X EX Et; (destruct (G r X EX) as [A B]; [unfold addrt; auto|split; [exact A|]]; destruct B as [B|[[B1 B2]|[B1 B2]]];
        [right; unfold probes; rewrite B; reflexivity| |]); unfold QTYPE_A, QTYPE_AAAA in *; try (exfalso; lia); left; apply interface_ips; unfold addr_of; rewrite Et in *; exact B2 || idtac.
      all: unfold addr_of in *; cbn. all: exact B2. }
    destruct Gd as [Gd4 Gd6]. destruct (set_hosts_good _ _ _ _ _ _ _ H Es Gd4 Gd6) as [G4 G6]. cbn [R with_R]. split; [exact G4|]. split; [exact G6|]. split.
    - intros r Y EY N. destruct (proj2 (Oth (a_name (rr Y)) (a_type (rr Y)) ltac:(intros [_ ?]; contradiction)) r Y EY (conj eq_refl eq_refl)) as (X & EX & NX). exists X. split; [exact EX|]. apply nolink_two. exact NX.
    - intros r Y EY A. destruct (in_dec (list_eq_dec Z.eq_dec) (a_name (rr Y)) hosts) as [I|I].
      + apply Sh in I as [[]|(r0 & X0 & _ & EX & En & Et)]. exists r0, X0. auto.
      + destruct (proj2 (Oth (a_name (rr Y)) (a_type (rr Y)) ltac:(intros [? _]; contradiction)) r Y EY (conj eq_refl eq_refl)) as (X & EX & NX). apply nolink_two in NX as [Er _]. exists r, X. split; [exact EX|]. rewrite <- Er. auto. }
  destruct V as (G4 & G6 & Bk & Nm). split; [|split; [exact Bk|split]].
  - intros r X EX N. destruct (IB r X EX) as (Y & EY & U); [intros Q; apply N; left; exact Q|intros Q; apply N; right; exact Q|]. exists Y. split; [exact EY|]. unfold unchanged in U. destruct U as (U & _). congruence.
  - intros r Y EY A. destruct (Nm r Y EY A) as (r0 & X0 & E0 & N0 & A0).
    assert (Tt : a_ttl (rr Y) <> 0) by (destruct A as [A|A]; [apply (G4 r Y EY A)|apply (G6 r Y EY A)]). split; [exact Tt|]. split; [|exists r0, X0; auto].
    destruct (IA (a_name (rr Y))) as [I4 I6]. { exists r0, X0. destruct A0 as [A0|A0]; [left|right]; split; auto. }
    destruct A as [A|A]; [left|right]; (split; [exact A|]).
    + apply I4; [apply Nw; auto|]. exists r, Y. split; [split; auto|]. split; [exact Tt|reflexivity].
    + apply I6; [apply Nw; auto|]. exists r, Y. split; [split; auto|]. split; [exact Tt|reflexivity].
  - intros host r0 X0 E0 N0 A0. destruct (IA host) as [I4 I6]. { exists r0, X0. destruct A0 as [A0|A0]; [left|right]; split; auto. }
    split; intros ip O; [apply I4|apply I6]; auto.
Qed.
