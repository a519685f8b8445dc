(* Proofs about loading the .service files again in place. *)
From Verif Require Import Base SpecDns SpecMap SpecTxt Lemmas Hash Xht SdTxt XhtProofs SdTxtProofs Wire Rec Qry Out In Api RecInv RecSafe RecOps RecAddr DaemonInv SpecDaemon SpecAddr FactsCalls FactsAddr Lib Conf Load SpecConf SpecLoad FactsLoad FactsLoad2 FactsLoad3 SpecReload.

(* ------------------------------------------------------------------ *)
(* One kind of address of one host *)
Definition nolost (ty : Z) (v : list (list Z)) (h : heap) : Prop := forall x X, h x = Some X -> a_type (rr X) = ty -> In (addr_of ty (rr X)) v -> a_ttl (rr X) <> 0.
Definition setup (host : list Z) (ty : Z) (v : list (list Z)) (h : heap) : Prop :=
  (forall x X, h x = Some X -> of_rec host ty X -> (a_ttl (rr X) = 0 /\ ~ In (addr_of ty (rr X)) v) \/ (a_ttl (rr X) <> 0 /\ In (addr_of ty (rr X)) v)) /\
  (forall i, In i v -> exists x X, h x = Some X /\ of_rec host ty X /\ addr_of ty (rr X) = i).
Lemma gone_addr : forall X Y ty, nolink Y = nolink (RecOps.gone X) -> addr_of ty (rr Y) = addr_of ty (rr X) /\ a_name (rr Y) = a_name (rr X) /\ a_type (rr Y) = a_type (rr X) /\ a_ttl (rr Y) = 0 /\ unique Y = unique X /\ a_ip (rr Y) = a_ip (rr X) /\ a_ip6 (rr Y) = a_ip6 (rr X).
Proof.
  intros X Y ty N. apply nolink_fields in N as (E & U & _). rewrite E, U. unfold addr_of. destruct (ty =? QTYPE_A); repeat split; reflexivity.
Qed.
Lemma updated_nolost : forall host ty v h h', updated host ty v h h' -> nolost ty v h -> nolost ty v h'.
Proof.
  intros host ty v h h' U G x Y EY T I. destruct (h x) as [X|] eqn:EX; [|apply (up_new _ _ _ _ _ U x Y EX EY)].
  pose proof (up_old _ _ _ _ _ U x X EX) as O. destruct (staleb host ty v X) eqn:St.
  - destruct (probes X); [congruence|]. destruct O as (Z & EZ & NZ). rewrite EY in EZ. injection EZ as <-. exfalso. destruct (gone_addr X Y ty NZ) as (A & _). rewrite A in I. apply stale_iff in St as [_ St]. contradiction.
  - destruct O as (Z & EZ & NZ). rewrite EY in EZ. injection EZ as <-. apply nolink_fields in NZ as (Er & _). rewrite Er in *. exact (G x X EX T I).
Qed.
Lemma updated_nolost' : forall host ty v h h' ty' v', updated host ty v h h' -> ty' <> ty -> nolost ty' v' h -> nolost ty' v' h'.
Proof.
  intros host ty v h h' ty' v' U D G x Y EY T I. destruct (proj2 (updated_same _ _ _ _ _ (a_name (rr Y)) ty' U ltac:(intros [_ ?]; contradiction)) x Y EY (conj eq_refl T)) as (X & EX & NX).
  apply nolink_fields in NX as (Er & _). rewrite Er in *. exact (G x X EX T I).
Qed.
Lemma updated_setup : forall host ty v h h', updated host ty v h h' -> nolost ty v h -> setup host ty v h'.
Proof.
  intros host ty v h h' U G. split; [|exact (up_all _ _ _ _ _ U)]. intros x Y EY O. destruct (h x) as [X|] eqn:EX.
  - pose proof (up_old _ _ _ _ _ U x X EX) as Q. destruct (staleb host ty v X) eqn:St.
    + destruct (probes X); [congruence|]. destruct Q as (Z & EZ & NZ). rewrite EY in EZ. injection EZ as <-. left. destruct (gone_addr X Y ty NZ) as (A & _ & _ & B & _). rewrite A. split; [exact B|]. apply stale_iff in St. apply St.
    + destruct Q as (Z & EZ & NZ). rewrite EY in EZ. injection EZ as <-. apply nolink_fields in NZ as (Er & _). right. unfold of_rec in O. rewrite Er in *.
      assert (I : In (addr_of ty (rr X)) v). { destruct (in_dec (list_eq_dec Z.eq_dec) (addr_of ty (rr X)) v) as [I|I]; [exact I|]. exfalso. assert (T2 : staleb host ty v X = true) by (apply stale_iff; split; [exact O|exact I]). congruence. }
      split; [exact (G x X EX (proj2 O) I)|exact I].
  - destruct (up_new _ _ _ _ _ U x Y EX EY) as (_ & A & _ & B & _). auto.
Qed.
Lemma same_setup : forall h h' host ty v, same_part h h' host ty -> setup host ty v h -> setup host ty v h'.
Proof.
  intros h h' host ty v [A B] [P Q]. split.
  - intros x Y EY O. destruct (B x Y EY O) as (X & EX & N). apply nolink_fields in N as (Er & _). unfold of_rec in O. rewrite Er in *. exact (P x X EX O).
  - intros i I. destruct (Q i I) as (x & X & EX & O & E). destruct (A x X EX O) as (Y & EY & N). apply nolink_fields in N as (Er & _). exists x, Y. unfold of_rec in *. rewrite Er. auto.
Qed.

(* What becomes of address records: wanted by P, they stay *)
Definition moved (P : answer -> Prop) (h h' : heap) : Prop := forall r X, h r = Some X -> addrt (rr X) -> P (rr X) \/ probes X = false ->
  exists Y, h' r = Some Y /\ unique Y = unique X /\ a_name (rr Y) = a_name (rr X) /\ a_type (rr Y) = a_type (rr X) /\ a_ip (rr Y) = a_ip (rr X) /\ a_ip6 (rr Y) = a_ip6 (rr X) /\
    (rr Y = rr X \/ (a_ttl (rr Y) = 0 /\ ~ P (rr X))).
Definition by_place (P : answer -> Prop) : Prop := forall a b, a_type a = a_type b -> a_ip a = a_ip b -> a_ip6 a = a_ip6 b -> P a -> P b.
Lemma moved_refl : forall P h, moved P h h.
Proof. intros P h r X E _ _. exists X. auto 9. Qed.
Lemma moved_trans : forall P h1 h2 h3, by_place P -> moved P h1 h2 -> moved P h2 h3 -> moved P h1 h3.
Proof.
  intros P h1 h2 h3 B M1 M2 r X E A C. destruct (M1 r X E A C) as (Y & EY & U & N & T & I4 & I6 & D).
  destruct (M2 r Y EY) as (Z & EZ & U' & N' & T' & I4' & I6' & D').
  { unfold addrt in *. rewrite T. exact A. } { destruct C as [C|C]; [left; apply (B (rr X)); auto|right; unfold probes in *; rewrite U; exact C]. }
  exists Z. repeat (split; [congruence|]). destruct D as [D|[D1 D2]].
  - destruct D' as [D'|[D1' D2']]; [left; congruence|right]. split; [exact D1'|]. rewrite <- D. exact D2'.
  - right. split; [|exact D2]. destruct D' as [D'|[D1' _]]; [rewrite D'; exact D1|exact D1'].
Qed.
Lemma kept_moved : forall P d d', kept d d' -> moved P (hp (R d)) (hp (R d')).
Proof. intros P d d' K r X E _ _. destruct (K r X E) as (Y & EY & A & B). exists Y. split; [exact EY|]. split; [exact B|]. rewrite A. auto 8. Qed.
Lemma updated_moved : forall P host ty v h h', updated host ty v h h' -> (forall X, of_rec host ty X -> (P (rr X) <-> In (addr_of ty (rr X)) v)) -> moved P h h'.
Proof.
  intros P host ty v h h' U Sp r X E A C. pose proof (up_old _ _ _ _ _ U r X E) as O. destruct (staleb host ty v X) eqn:St.
  - apply stale_iff in St as [O1 O2]. assert (NP : ~ P (rr X)) by (intros Q; apply O2, Sp; assumption). destruct C as [C|C]; [contradiction|]. rewrite C in O. destruct O as (Y & EY & NY). exists Y. split; [exact EY|].
    destruct (gone_addr X Y ty NY) as (_ & A1 & A2 & A3 & A4 & A5 & A6). auto 10.
  - destruct O as (Y & EY & NY). apply nolink_fields in NY as (Er & Eu & _). exists Y. split; [exact EY|]. rewrite Er, Eu. auto 8.
Qed.

Lemma set_hosts_setup : forall P hosts s qs t v4 v6 s', by_place P -> rinv s qs -> NoDup hosts -> set_hosts s t hosts v4 v6 = Ok s' ->
  (forall a, a_type a = QTYPE_A -> (P a <-> In (a_ip a) v4)) -> (forall a, a_type a = QTYPE_AAAA -> (P a <-> In (a_ip6 a) v6)) ->
  nolost QTYPE_A v4 (hp s) -> nolost QTYPE_AAAA v6 (hp s) ->
  (forall host, In host hosts -> setup host QTYPE_A v4 (hp s') /\ setup host QTYPE_AAAA v6 (hp s')) /\ moved P (hp s) (hp s').
Proof.
  assert (NA : QTYPE_A <> QTYPE_AAAA) by (unfold QTYPE_A, QTYPE_AAAA; lia).
  intros P. induction hosts as [|n l IH]; intros s qs t v4 v6 s' Bp H N E P4 P6 G4 G6; cbn [set_hosts] in E.
  { injection E as <-. split; [intros host []|apply moved_refl]. }
  apply NoDup_cons_iff in N as [N1 N2].
  destruct (update_spec s qs t n QTYPE_A v4 ltac:(auto) H) as (s1 & qs1 & E1 & H1 & U1). rewrite E1 in E. cbn [bind] in E.
  destruct (update_spec s1 qs1 t n QTYPE_AAAA v6 ltac:(auto) H1) as (s2 & qs2 & E2 & H2 & U2). rewrite E2 in E. cbn [bind] in E.
  pose proof (updated_nolost _ _ _ _ _ U1 G4) as G41. pose proof (updated_nolost' _ _ _ _ _ _ _ U1 (fun q => NA (eq_sym q)) G6) as G61.
  pose proof (updated_nolost' _ _ _ _ _ _ _ U2 NA G41) as G42. pose proof (updated_nolost _ _ _ _ _ U2 G61) as G62.
  destruct (IH s2 qs2 t v4 v6 s' Bp H2 N2 E P4 P6 G42 G62) as [Sl Ml].
  destruct (set_hosts_spec l s2 qs2 t v4 v6 H2 N2) as (s'' & qs'' & E'' & _ & Oth & _). rewrite E in E''. injection E'' as <-. split.
  - intros host [<-|I]; [|exact (Sl host I)]. split.
    + apply (same_setup (hp s2)); [apply Oth; intros [? _]; contradiction|]. apply (same_setup (hp s1)); [apply (updated_same _ _ _ _ _ n QTYPE_A U2); intros [_ ?]; contradiction|]. exact (updated_setup _ _ _ _ _ U1 G4).
    + apply (same_setup (hp s2)); [apply Oth; intros [? _]; contradiction|]. exact (updated_setup _ _ _ _ _ U2 G61).
  - apply (moved_trans P _ (hp s1) _ Bp).
    { apply (updated_moved P n QTYPE_A v4); [exact U1|]. intros X [_ T]. rewrite (P4 _ T). unfold addr_of. rewrite Z.eqb_refl. reflexivity. }
    apply (moved_trans P _ (hp s2) _ Bp); [|exact Ml].
    apply (updated_moved P n QTYPE_AAAA v6); [exact U2|]. intros X [_ T]. rewrite (P6 _ T). reflexivity.
Qed.

Lemma place_by : forall ifs ifname, by_place (has_place ifs ifname).
Proof. intros ifs ifname a b T I4 I6 [[A B]|[A B]]; [left|right]; (split; [congruence|]); [rewrite <- I4|rewrite <- I6]; exact B. Qed.

Lemma ifaddrs_again : forall d e ifname l, reach d -> 0 <= fst (e_now e) -> e_ifs e = Some l -> none_leaving d l ifname ->
  exists d' x, step d e (OSetIfaddrs ifname) = Ok (d', x) /\ reach d' /\
    (forall r X, record d r X -> ~ addrt (rr X) -> exists Y, record d' r Y /\ rr Y = rr X /\ unique Y = unique X) /\
    (forall r Y, record d' r Y -> ~ addrt (rr Y) -> exists X, record d r X /\ rr Y = rr X /\ unique Y = unique X) /\
    (forall r Y, record d' r Y -> addrt (rr Y) -> ((withdrawn Y /\ ~ has_place l ifname (rr Y)) \/ (~ withdrawn Y /\ has_place l ifname (rr Y))) /\
       exists r0 X0, record d r0 X0 /\ a_name (rr X0) = a_name (rr Y) /\ addrt (rr X0)) /\
    (forall host r0 X0, record d r0 X0 -> a_name (rr X0) = host -> addrt (rr X0) ->
       (forall ip, on_interface l ifname AF_INET ip -> offers d' host QTYPE_A ip) /\ (forall ip, on_interface l ifname AF_INET6 ip -> offers d' host QTYPE_AAAA ip)) /\
    moved (has_place l ifname) (hp (R d)) (hp (R d')).
Proof.
  intros d e ifname l K T El G. destruct (reach_do d e (OSetIfaddrs ifname) K) as (d' & x & E & K'); [split; [exact T|exact I]|]. exists d', x. split; [exact E|]. split; [exact K'|].
  destruct (reach_dinv d K) as (qs & H & _). pose proof E as E0. cbn [step] in E0. rewrite El in E0. unfold on_recs, set_interface_addresses in E0. cbv zeta in E0.
  destruct (host_names_spec (hp (R d)) (concat (pub (R d))) [] (pub_live _ (ri_p _ _ H)) (NoDup_nil _)) as (hosts & Eh & Nh & Sh). rewrite Eh in E0. cbn [bind] in E0.
  match type of E0 with context [set_hosts _ _ _ ?a ?b] => set (v4 := a) in *; set (v6 := b) in * end.
  assert (I4 : forall ip, In ip v4 <-> on_interface l ifname AF_INET ip) by (intros ip; apply interface_ips). assert (I6 : forall ip, In ip v6 <-> on_interface l ifname AF_INET6 ip) by (intros ip; apply interface_ips). clearbody v4 v6.
  destruct (set_hosts_spec hosts (R d) qs (now d) v4 v6 H Nh) as (s' & qs' & Es & H' & Oth & _). rewrite Es in E0. cbn [bind] in E0. injection E0 as <- _.
  assert (Hh : forall host, In host hosts <-> exists r X, record d r X /\ a_name (rr X) = host /\ addrt (rr X)).
  { intros host. rewrite Sh. split.
    - intros [[]|(r & X & _ & Q)]. exists r, X. exact Q.
    - intros (r & X & EX & Q). right. exists r, X. split; [|split; [exact EX|exact Q]]. apply (pk_live _ (ri_p _ _ H)). unfold record in EX. congruence. }
  assert (P4 : forall a, a_type a = QTYPE_A -> (has_place l ifname a <-> In (a_ip a) v4)) by (intros a Ta; rewrite I4; unfold has_place; rewrite Ta; split; [intros [[_ Q]|[Q _]]; [exact Q|discriminate Q]|auto]).
  assert (P6 : forall a, a_type a = QTYPE_AAAA -> (has_place l ifname a <-> In (a_ip6 a) v6)) by (intros a Ta; rewrite I6; unfold has_place; rewrite Ta; split; [intros [[Q _]|[_ Q]]; [discriminate Q|exact Q]|auto]).
  destruct (set_hosts_setup (has_place l ifname) hosts (R d) qs (now d) v4 v6 s' (place_by l ifname) H Nh Es P4 P6) as [Sl Ml].
  { intros r X EX Ty Q. apply (G r X EX). apply P4; [exact Ty|exact Q]. } { intros r X EX Ty Q. apply (G r X EX). apply P6; [exact Ty|exact Q]. }
  cbn [R with_R]. split; [|split; [|split; [|split; [|exact Ml]]]].
  - intros r X EX N. destruct (proj1 (Oth (a_name (rr X)) (a_type (rr X)) ltac:(intros [_ ?]; contradiction)) r X EX (conj eq_refl eq_refl)) as (Y & EY & NY). exists Y. split; [exact EY|]. apply nolink_two. exact NY.
  - intros r Y EY N. destruct (proj2 (Oth (a_name (rr Y)) (a_type (rr Y)) ltac:(intros [_ ?]; contradiction)) r Y EY (conj eq_refl eq_refl)) as (X & EX & NX). exists X. split; [exact EX|]. apply nolink_two. exact NX.
  - intros r Y EY A. assert (Ih : In (a_name (rr Y)) hosts).
    { destruct (in_dec (list_eq_dec Z.eq_dec) (a_name (rr Y)) hosts) as [I|I]; [exact I|]. destruct (proj2 (Oth (a_name (rr Y)) (a_type (rr Y)) ltac:(intros [? _]; contradiction)) r Y EY (conj eq_refl eq_refl)) as (X & EX & NX).
      apply nolink_two in NX as [Er _]. apply Hh. exists r, X. split; [exact EX|]. rewrite <- Er. auto. }
    split; [|apply Hh; exact Ih]. destruct (Sl _ Ih) as [[S4 _] [S6 _]]. unfold withdrawn. destruct A as [A|A].
    + rewrite (P4 _ A). exact (S4 r Y EY (conj eq_refl A)).
    + rewrite (P6 _ A). exact (S6 r Y EY (conj eq_refl A)).
  - intros host r0 X0 EX0 Nm A0. assert (Ih : In host hosts) by (apply Hh; eauto). destruct (Sl _ Ih) as [[S4 A4] [S6 A6]]. split; intros ip O.
    + apply I4 in O. destruct (A4 ip O) as (r & X & EX & [O1 O2] & Ad). exists r, X. split; [split; auto|]. split; [|exact Ad]. destruct (S4 r X EX (conj O1 O2)) as [[_ Q]|[Q _]]; [rewrite Ad in Q; contradiction|exact Q].
    + apply I6 in O. destruct (A6 ip O) as (r & X & EX & [O1 O2] & Ad). exists r, X. split; [split; auto|]. split; [|exact Ad]. destruct (S6 r X EX (conj O1 O2)) as [[_ Q]|[Q _]]; [rewrite Ad in Q; contradiction|exact Q].
Qed.

(* ------------------------------------------------------------------ *)
(* What becomes of the other records *)
Definition stays (d d' : daemon) : Prop :=
  (forall r X, record d r X -> ~ addrt (rr X) -> exists Y, record d' r Y /\ same_record X Y) /\
  (forall r Y, record d' r Y -> ~ addrt (rr Y) -> exists X, record d r X /\ same_record X Y).
Lemma same_of : forall X Y, rr Y = rr X -> unique Y = unique X -> same_record X Y.
Proof. intros X Y A B. unfold same_record. rewrite A. auto 7. Qed.
Lemma same_trans : forall X Y Z, same_record X Y -> same_record Y Z -> same_record X Z.
Proof. intros X Y Z (A1 & A2 & A3 & A4 & A5 & A6) (B1 & B2 & B3 & B4 & B5 & B6). split; [congruence|]. split; [|repeat split; congruence]. intros N. rewrite B2 by congruence. exact (A2 N). Qed.
Lemma same_addrt : forall X Y, same_record X Y -> (addrt (rr X) <-> addrt (rr Y)).
Proof. intros X Y (_ & _ & _ & E & _). unfold addrt. rewrite E. reflexivity. Qed.
Lemma stays_refl : forall d, stays d d.
Proof. intros d. split; intros r X E _; exists X; (split; [exact E|apply same_of; reflexivity]). Qed.
Lemma stays_trans : forall d1 d2 d3, stays d1 d2 -> stays d2 d3 -> stays d1 d3.
Proof.
  intros d1 d2 d3 [A B] [C D]. split.
  - intros r X E N. destruct (A r X E N) as (Y & EY & S1). destruct (C r Y EY) as (Z & EZ & S2); [rewrite <- (same_addrt _ _ S1); exact N|]. exists Z. split; [exact EZ|exact (same_trans _ _ _ S1 S2)].
  - intros r Z E N. destruct (D r Z E N) as (Y & EY & S1). destruct (B r Y EY) as (X & EX & S2); [rewrite (same_addrt _ _ S1); exact N|]. exists X. split; [exact EX|exact (same_trans _ _ _ S2 S1)].
Qed.
Lemma kept_stays : forall d d', kept d d' -> kept d' d -> stays d d'.
Proof.
  intros d d' A B. split; intros r X E _.
  - destruct (A r X E) as (Y & EY & P & Q). exists Y. split; [exact EY|apply same_of; assumption].
  - destruct (B r X E) as (Y & EY & P & Q). exists Y. split; [exact EY|apply same_of; congruence].
Qed.
Lemma stays_double : forall d d', stays d d' -> no_double d -> no_double d'.
Proof.
  intros d d' [_ B] N r X r' X' E E' T4 T6 En Et Ed.
  destruct (B r X E) as (Y & EY & S1); [intros [Q|Q]; contradiction|]. destruct (B r' X' E') as (Y' & EY' & S2); [intros [Q|Q]; congruence|].
  destruct S1 as (_ & _ & A3 & A4 & _ & A6). destruct S2 as (_ & _ & B3 & B4 & _ & B6). apply (N r Y r' Y' EY EY'); congruence.
Qed.

(* record() for what is there already *)
Lemma named_there : forall d e host name ty, reach d -> 0 <= fst (e_now e) ->
  clear_way d host name ty ->
  shows d (fun a => a_name a = name /\ a_type a = ty /\ a_rdname a = Some host) ->
  exists d' r, conf_record d e true (Some host) name ty 120 = Ok (d', r) /\ reach d' /\ kept d d' /\ kept d' d.
Proof.
  intros d e host name ty K T C (x0 & X0 & EX0 & S0). destruct (record_named d e host name ty 120 K T C) as (d' & r & Y & E & K' & Kp & Ad & EY & N1 & N2 & N3 & D).
  exists d', r. split; [exact E|]. split; [exact K'|]. split; [exact Kp|]. intros x Z EZ. destruct (Nat.eq_dec x r) as [->|Nx].
  - unfold record in *. rewrite EY in EZ. injection EZ as <-. destruct D as [(X & EX & Er)|(_ & _ & D)]; [|destruct (D x0 X0 EX0 S0)]. exists X. split; [exact EX|]. destruct (Kp r X EX) as (Y' & EY' & _ & U). unfold record in EY'. rewrite EY in EY'. injection EY' as <-. auto.
  - destruct (Ad x Z EZ Nx) as (X & EX & P & Q). exists X. auto.
Qed.
Lemma own_there : forall d e name ty ttl (o : nat -> op) f, reach d -> 0 <= fst (e_now e) -> keeps_id f ->
  (forall d r, live d r -> legal d e (o r)) -> (forall d r, step d e (o r) = on_recs d (mdnsd_set (R d) (now d) r f)) ->
  shows d (fun a => a_name a = name /\ a_type a = ty) ->
  exists d1 r d2 X Y, conf_record d e false None name ty ttl = Ok (d1, r) /\ step d1 e (o r) = Ok (d2, RUnit) /\ reach d2 /\
    record d r X /\ a_name (rr X) = name /\ a_type (rr X) = ty /\ record d2 r Y /\ rr Y = f (rr X) /\ unique Y = unique X /\ added d d2 r /\
    (forall x Z, record d x Z -> x <> r -> exists W, record d2 x W /\ rr W = rr Z /\ unique W = unique Z).
Proof.
  intros d e name ty ttl o f K T Kf Lo So (x0 & X0 & EX0 & S0). destruct (record_own d e name ty ttl K T) as (d1 & r & Y & E & K1 & Kp & Ad & EY & N1 & N2 & D).
  destruct D as [(X & EX & Er & Eu)|(_ & _ & _ & D)]; [|destruct (D x0 X0 EX0 S0)].
  destruct (set_do d1 e (o r) f r Y K1) as (d2 & Z & E2 & K2 & EZ & RZ & UZ & Ad2 & Kp2); [apply Lo; unfold live, record in *; congruence|exact Kf|apply So|exact EY|].
  exists d1, r, d2, X, Z. split; [exact E|]. split; [exact E2|]. split; [exact K2|]. split; [exact EX|]. rewrite <- Er. split; [exact N1|]. split; [exact N2|]. split; [exact EZ|]. split; [exact RZ|]. split; [congruence|]. split.
  - intros x V EV Nx. destruct (Ad2 x V EV Nx) as (U & EU & P1 & P2). destruct (Ad x U EU Nx) as (W & EW & P3 & P4). exists W. split; [exact EW|]. split; congruence.
  - intros x V EV Nx. destruct (Kp x V EV) as (U & EU & P1 & P2). destruct (Kp2 x U EU Nx) as (W & EW & P3 & P4). exists W. split; [exact EW|]. split; congruence.
Qed.

Lemma part_move : forall ifs ifs' ifname hostname s a, ~ addrt a -> part_of ifs ifname hostname s a -> part_of ifs' ifname hostname s a.
Proof.
  intros ifs ifs' ifname hostname s a N P. unfold part_of in *. destruct P as [P|[P|[P|[P|[P|P]]]]]; auto 6. exfalso. apply N. destruct P as (_ & _ & [[P _]|[P _]]); [left|right]; exact P.
Qed.
Lemma srv_same : forall n port to a, is_srv n port to a -> put_host to (put_srv 0 0 port a) = a.
Proof. intros n port to a (A & B & C & D & E & F & G). destruct a. cbn in *. subst. reflexivity. Qed.
Lemma nodup_inj : forall (A B : Type) (f : A -> B) l x y, NoDup (map f l) -> In x l -> In y l -> f x = f y -> x = y.
Proof.
  intros A B f. induction l as [|a l IH]; intros x y N Ix Iy E; [destruct Ix|]. cbn [map] in N. apply NoDup_cons_iff in N as [N1 N2]. destruct Ix as [<-|Ix]; destruct Iy as [<-|Iy]; [reflexivity| | |apply IH; assumption].
  - exfalso. apply N1. rewrite E. apply in_map. exact Iy.
  - exfalso. apply N1. rewrite <- E. apply in_map. exact Ix.
Qed.

(* ------------------------------------------------------------------ *)
Section Again.
Variables (ifs : list ifaddr) (ifname hostname : list Z) (l : list conf_srec).
Hypothesis W : well_named hostname l.
Hypothesis Ap : apart hostname l.

Notation part := (part_of ifs ifname hostname).
Definition sound' (d : daemon) : Prop := forall r X, record d r X -> exists s, In s l /\ ((~ addrt (rr X) /\ part s (rr X)) \/ (addrt (rr X) /\ a_name (rr X) = target hostname s)).
Definition core (d : daemon) (s : conf_srec) : Prop :=
  shows d (is_ptr meta (service_type s)) /\ shows d (is_ptr (service_type s) (instance hostname s)) /\ shows d (is_srv (instance hostname s) (s_port s mod 65536) (target hostname s)) /\
  shows d (is_txt (instance hostname s) (s_txt s)) /\ (forall c, In c (aliases s) -> shows d (is_cname c (target hostname s))).
Definition placed (d : daemon) (s : conf_srec) : Prop :=
  (forall ip, on_interface ifs ifname AF_INET ip -> offers d (target hostname s) QTYPE_A ip) /\ (forall ip, on_interface ifs ifname AF_INET6 ip -> offers d (target hostname s) QTYPE_AAAA ip).
Definition tidy (d : daemon) : Prop := forall r Y, record d r Y -> addrt (rr Y) -> (withdrawn Y /\ ~ has_place ifs ifname (rr Y)) \/ (~ withdrawn Y /\ has_place ifs ifname (rr Y)).

Lemma kept_core : forall d d' s, kept d d' -> core d s -> core d' s.
Proof. intros d d' s K (A & B & C & D & E). repeat split; eauto using shows_kept. Qed.
Lemma kept_placed : forall d d' s, kept d d' -> placed d s -> placed d' s.
Proof. intros d d' s K (A & B). split; eauto using offers_kept. Qed.
Lemma kept_sound' : forall d d', kept d' d -> sound' d -> sound' d'.
Proof. intros d d' K S r X E. destruct (K r X E) as (Y & EY & Er & _). rewrite <- Er. exact (S r Y EY). Qed.
Lemma kept_tidy : forall d d', kept d' d -> tidy d -> tidy d'.
Proof. intros d d' K S r X E. destruct (K r X E) as (Y & EY & Er & _). unfold withdrawn. rewrite <- Er. exact (S r Y EY). Qed.
Lemma kept_leaving : forall d d', kept d' d -> none_leaving d ifs ifname -> none_leaving d' ifs ifname.
Proof. intros d d' K S r X E. destruct (K r X E) as (Y & EY & Er & _). unfold withdrawn. rewrite <- Er. exact (S r Y EY). Qed.
Lemma tidy_leaving : forall d, tidy d -> none_leaving d ifs ifname.
Proof. intros d T r X E P Q. destruct (T r X E) as [[_ A]|[A _]]; [destruct P as [[P _]|[P _]]; [left|right]; exact P| |]; contradiction. Qed.
Lemma sound_rough' : forall d, sound' d -> rough hostname l d.
Proof.
  intros d S r X E. destruct (S r X E) as (s & I & [[_ P]|[A N]]); [exact (part_role ifs ifname hostname l s _ I P)|]. right. right. left. exists s. auto.
Qed.

Lemma load_again : forall e d s, In s l -> 0 <= fst (e_now e) -> e_ifs e = Some ifs ->
  reach d -> sound' d -> (forall s, In s l -> core d s) -> none_leaving d ifs ifname ->
  exists d', load d e ifname hostname s = Ok d' /\ reach d' /\ sound' d' /\ (forall s, In s l -> core d' s) /\ tidy d' /\ placed d' s /\ (forall s', In s' l -> placed d s' -> placed d' s') /\ stays d d' /\ moved (has_place ifs ifname) (hp (R d)) (hp (R d')).
Proof.
  intros e d s Is T Ei K So Co Nl.
  pose proof (wn_short _ _ W s) as Sh. pose proof (fun n J => Sh n Is J) as Sh'. clear Sh. unfold names_of in Sh'. cbn [In] in Sh'.
  assert (Et : tlocal s = service_type s) by (apply tlocal_eq, Sh'; auto). assert (Eh : hlocal s hostname = instance hostname s) by (apply hlocal_eq, Sh'; auto).
  assert (Eg : tgtlocal s hostname = target hostname s) by (apply tgtlocal_eq, Sh'; auto).
  unfold load. rewrite Et, Eh, Eg, meta_eq.
  (* the PTR of the type *)
  destruct (named_there d e (service_type s) meta QTYPE_PTR K T) as (d1 & r1 & E1 & K1 & Kp1 & Kb1).
  { apply (way hostname l W Ap d meta (service_type s) QTYPE_PTR K (sound_rough' d So)). left. split; [reflexivity|]. split; [left; reflexivity|]. exists s. auto. }
  { destruct (Co s Is) as ((r & X & EX & A & B & C & _) & _). exists r, X. auto. }
  rewrite E1. cbn [bind]. pose proof (kept_sound' d d1 Kb1 So) as So1.
  (* the PTR of the instance *)
  destruct (named_there d1 e (instance hostname s) (service_type s) QTYPE_PTR K1 T) as (d2 & r2 & E2 & K2 & Kp2 & Kb2).
  { apply (way hostname l W Ap d1 (service_type s) (instance hostname s) QTYPE_PTR K1 (sound_rough' d1 So1)). left. split; [reflexivity|]. split; [right; eauto|]. exists s. auto. }
  { destruct (kept_core d d1 s Kp1 (Co s Is)) as (_ & (r & X & EX & A & B & C & _) & _). exists r, X. auto. }
  rewrite E2. cbn [bind]. pose proof (kept_sound' d1 d2 Kb2 So1) as So2.
  (* the SRV *)
  destruct (own_there d2 e (instance hostname s) QTYPE_SRV 120 (fun r => OSetSrv r 0 0 (s_port s mod 65536) (target hostname s)) (fun a => put_host (target hostname s) (put_srv 0 0 (s_port s mod 65536) a)) K2 T) as (d3 & r3 & d4 & X3 & Y3 & E3 & E4 & K4 & EX3 & N3 & T3 & EY3 & RY3 & UY3 & Ad4 & Kp4).
  { apply keeps_srv. } { intros d' r L. split; [exact T|exact L]. } { reflexivity. }
  { destruct (kept_core d1 d2 s Kp2 (kept_core d d1 s Kp1 (Co s Is))) as (_ & _ & (r & X & EX & A & B & _) & _). exists r, X. auto. }
  rewrite E3. cbn [bind]. rewrite E4. cbn [bind].
  assert (RY3' : rr Y3 = rr X3).
  { rewrite RY3. destruct (So2 r3 X3 EX3) as (s' & I & [[_ P]|[A _]]); [|exfalso; unfold addrt in A; rewrite T3 in A; destruct A; discriminate].
    pose proof (part_srv ifs ifname hostname s' _ P T3) as Q. rewrite N3 in Q. assert (s = s') by (apply (nodup_inj _ _ (instance hostname) l); [apply (wn_once _ _ W)|exact Is|exact I|exact Q]). subst s'.
    apply (srv_same (instance hostname s)). unfold QTYPE_SRV in T3. destruct P as [P|[P|[P|[P|[(c & _ & P)|P]]]]]; unfold is_ptr, is_txt, is_cname, is_address, QTYPE_PTR, QTYPE_TXT, QTYPE_CNAME, QTYPE_A, QTYPE_AAAA in P; try exact P; exfalso; destruct P as (? & P); lia. }
  assert (Kp24 : kept d2 d4). { intros x X EX. destruct (Nat.eq_dec x r3) as [->|Nx]; [|exact (Kp4 x X EX Nx)]. unfold record in *. rewrite EX3 in EX. injection EX as <-. exists Y3. auto. }
  assert (Kb42 : kept d4 d2). { intros x X EX. destruct (Nat.eq_dec x r3) as [->|Nx]; [|destruct (Ad4 x X EX Nx) as (V & EV & P & Q); exists V; auto]. unfold record in *. rewrite EY3 in EX. injection EX as <-. exists X3. auto. }
  pose proof (kept_sound' d2 d4 Kb42 So2) as So4.
  assert (Kp04 : kept d d4) by eauto using kept_trans. assert (Kb40 : kept d4 d) by eauto using kept_trans.
  (* the addresses *)
  destruct (place_do d4 e (target hostname s) QTYPE_A K4 T ltac:(auto)) as (d5 & r5 & E5 & K5 & Kp5 & Sh5 & C5 & _). rewrite E5. cbn [bind].
  destruct (place_do d5 e (target hostname s) QTYPE_AAAA K5 T ltac:(auto)) as (d6 & r6 & E6 & K6 & Kp6 & Sh6 & C6 & _). rewrite E6. cbn [bind].
  assert (S6 : forall r X, record d6 r X -> (exists X0, record d r X0 /\ rr X0 = rr X /\ unique X0 = unique X) \/ (a_ttl (rr X) <> 0 /\ addrt (rr X) /\ a_name (rr X) = target hostname s)).
  { intros r X E. assert (Q : forall ty, ty = QTYPE_A \/ ty = QTYPE_AAAA -> rr X = new_answer (target hostname s) ty 120 -> a_ttl (rr X) <> 0 /\ addrt (rr X) /\ a_name (rr X) = target hostname s).
    { intros ty Ty ->. unfold addrt. cbn [new_answer a_ttl a_type a_name]. split; [lia|]. split; [exact Ty|reflexivity]. }
    destruct (C6 r X E) as [(X1 & EX1 & R1 & U1)|(A & B)]; [|right; apply (Q QTYPE_AAAA); auto].
    destruct (C5 r X1 EX1) as [(X0 & EX0 & R0 & U0)|(A & B)]; [|right; apply (Q QTYPE_A); [auto|congruence]]. left.
    destruct (Kb40 r X0 EX0) as (V & EV & P1 & P2). exists V. split; [exact EV|]. split; congruence. }
  assert (Kp06 : kept d d6) by eauto 6 using kept_trans.
  assert (Nl6 : none_leaving d6 ifs ifname).
  { intros r X E P. destruct (S6 r X E) as [(X0 & EX0 & R0 & _)|(A & _)]; [|exact A]. unfold withdrawn. rewrite <- R0 in *. exact (Nl r X0 EX0 P). }
  destruct (ifaddrs_again d6 e ifname ifs K6 T Ei Nl6) as (d7 & x7 & E7 & K7 & Fw & Bk & Ad & Of & Mv). rewrite E7. cbn [bind].
  assert (St7 : stays d d7).
  { split.
    - intros r X E N. destruct (Kp06 r X E) as (Y & EY & P & Q). destruct (Fw r Y EY) as (Z & EZ & P' & Q'); [rewrite P; exact N|]. exists Z. split; [exact EZ|apply same_of; congruence].
    - intros r Z E N. destruct (Bk r Z E N) as (Y & EY & P & Q). rewrite P in N. destruct (S6 r Y EY) as [(X & EX & P' & Q')|(_ & A & _)]; [|contradiction]. exists X. split; [exact EX|apply same_of; congruence]. }
  assert (So7 : sound' d7).
  { intros r Y EY. assert (Dc : addrt (rr Y) \/ ~ addrt (rr Y)) by (unfold addrt; lia). destruct Dc as [A|A].
    - destruct (Ad r Y EY A) as (_ & r0 & X0 & E0 & Nm & A0). destruct (S6 r0 X0 E0) as [(X & EX & Er & _)|(_ & _ & Q)]; [|exists s; split; [exact Is|]; right; split; [exact A|congruence]].
      destruct (So r0 X EX) as (s' & I & [[N _]|[_ N]]); [rewrite Er in N; contradiction|]. exists s'. split; [exact I|]. right. split; [exact A|congruence].
    - destruct (Bk r Y EY A) as (X & EX & Er & _). rewrite Er in *. destruct (S6 r X EX) as [(X0 & EX0 & Er0 & _)|(_ & Q & _)]; [|contradiction]. rewrite <- Er0. exact (So r X0 EX0). }
  assert (Sh7 : forall P : answer -> Prop, (forall a, P a -> ~ addrt a) -> shows d P -> shows d7 P).
  { intros P NP (r & X & EX & HP). destruct (Kp06 r X EX) as (V & EV & Rv & _). destruct (Fw r V EV) as (Y & EY & Er & _); [rewrite Rv; exact (NP _ HP)|]. exists r, Y. rewrite Er, Rv. auto. }
  assert (Co7 : forall s', In s' l -> core d7 s').
  { intros s' I. destruct (Co s' I) as (A & B & C & D & E). repeat split.
    - apply Sh7; [intros a (_ & Q & _); unfold addrt; rewrite Q; unfold QTYPE_PTR, QTYPE_A, QTYPE_AAAA; lia|exact A].
    - apply Sh7; [intros a (_ & Q & _); unfold addrt; rewrite Q; unfold QTYPE_PTR, QTYPE_A, QTYPE_AAAA; lia|exact B].
    - apply Sh7; [intros a (_ & Q & _); unfold addrt; rewrite Q; unfold QTYPE_SRV, QTYPE_A, QTYPE_AAAA; lia|exact C].
    - apply Sh7; [intros a (_ & Q & _); unfold addrt; rewrite Q; unfold QTYPE_TXT, QTYPE_A, QTYPE_AAAA; lia|exact D].
    - intros c Ic. apply Sh7; [intros a (_ & Q & _); unfold addrt; rewrite Q; unfold QTYPE_CNAME, QTYPE_A, QTYPE_AAAA; lia|exact (E c Ic)]. }
  assert (Td7 : tidy d7) by (intros r Y EY A; apply (Ad r Y EY A)).
  assert (Pl7 : placed d7 s) by (destruct Sh6 as (r & X & EX & En & Ety); apply (Of (target hostname s) r X EX En); right; exact Ety).
  assert (Pl7' : forall s', In s' l -> placed d s' -> placed d7 s').
  { intros s' I [P4 P6]. split; intros ip O.
    - destruct (P4 ip O) as (r & X & (EX & En & Ety) & _). destruct (Kp06 r X EX) as (V & EV & Rv & _). apply (Of (target hostname s') r V EV); [congruence|unfold addrt; rewrite Rv; auto|exact O].
    - destruct (P6 ip O) as (r & X & (EX & En & Ety) & _). destruct (Kp06 r X EX) as (V & EV & Rv & _). apply (Of (target hostname s') r V EV); [congruence|unfold addrt; rewrite Rv; auto|exact O]. }
  assert (Mv7 : moved (has_place ifs ifname) (hp (R d)) (hp (R d7))) by (apply (moved_trans _ _ (hp (R d6)) _ (place_by ifs ifname)); [apply kept_moved; exact Kp06|exact Mv]).
  (* the CNAME *)
  assert (C8 : exists d8, match s_cname s with Some c => '(d, _) <- conf_record d7 e true (Some (target hostname s)) (fqdn c) QTYPE_CNAME 120;; Ok d | None => Ok d7 end = Ok d8 /\ reach d8 /\ kept d7 d8 /\ kept d8 d7).
  { unfold aliases in *. destruct (s_cname s) as [c|] eqn:Ec; [|exists d7; split; [reflexivity|]; split; [exact K7|]; split; apply kept_refl].
    assert (Ia : In (rooted c) (aliases s)) by (unfold aliases; rewrite Ec; left; reflexivity).
    assert (Ef : fqdn c = rooted c) by (apply fqdn_eq, Sh'; right; right; right; left; reflexivity). rewrite Ef.
    destruct (named_there d7 e (target hostname s) (rooted c) QTYPE_CNAME K7 T) as (d8 & r8 & E8 & K8 & Kp8 & Kb8).
    { apply (way hostname l W Ap d7 (rooted c) (target hostname s) QTYPE_CNAME K7 (sound_rough' d7 So7)). right. split; [reflexivity|]. exists s. auto. }
    { destruct (Co7 s Is) as (_ & _ & _ & _ & Q). destruct (Q _ Ia) as (r & X & EX & A & B & C & _). exists r, X. auto. }
    rewrite E8. cbn [bind]. exists d8. auto. }
  destruct C8 as (d8 & E8 & K8 & Kp8 & Kb8). rewrite E8. cbn [bind].
  (* the TXT *)
  destruct (txt_packet (s_txt s)) as (p & Ep & Hp); [intros t It; exact (wn_lines _ _ W s t Is It)|].
  destruct (own_there d8 e (instance hostname s) QTYPE_TXT 4500 (fun r => OSetRaw r p) (put_raw p) K8 T) as (d9 & r9 & d10 & X9 & Y9 & E9 & E10 & K10 & EX9 & N9 & T9 & EY9 & RY9 & UY9 & Ad10 & Kp10).
  { apply keeps_raw. } { intros d' r L. split; [exact T|exact L]. } { reflexivity. }
  { destruct (kept_core d7 d8 s Kp8 (Co7 s Is)) as (_ & _ & _ & (r & X & EX & A & B & _) & _). exists r, X. auto. }
  rewrite E9. cbn [bind]. rewrite Ep. cbn [bind]. rewrite E10. cbn [bind]. exists d10. split; [reflexivity|]. split; [exact K10|].
  pose proof (kept_sound' d7 d8 Kb8 So7) as So8.
  assert (Na9 : ~ addrt (rr X9)) by (unfold addrt; rewrite T9; unfold QTYPE_TXT, QTYPE_A, QTYPE_AAAA; lia).
  assert (Tx : is_txt (instance hostname s) (s_txt s) (rr X9)).
  { destruct (So8 r9 X9 EX9) as (s' & I & [[_ P]|[A _]]); [|contradiction]. pose proof (part_txt ifs ifname hostname s' _ P T9) as Q. rewrite N9 in Q.
    assert (s = s') by (apply (nodup_inj _ _ (instance hostname) l); [apply (wn_once _ _ W)|exact Is|exact I|exact Q]). subst s'.
    unfold QTYPE_TXT in T9. destruct P as [P|[P|[P|[P|[(c & _ & P)|P]]]]]; unfold is_ptr, is_srv, is_cname, is_address, QTYPE_PTR, QTYPE_SRV, QTYPE_CNAME, QTYPE_A, QTYPE_AAAA in P; try exact P; exfalso; destruct P as (? & P); lia. }
  assert (Tx' : is_txt (instance hostname s) (s_txt s) (rr Y9)).
  { rewrite RY9. destruct Tx as (A & B & C & _). destruct (rr X9). cbn in *. repeat split; auto. exists p. split; [reflexivity|exact Hp]. }
  assert (Sr : same_record X9 Y9) by (split; [exact UY9|]; split; [intros Q; contradiction|]; rewrite RY9; destruct (rr X9); repeat split).
  assert (St10 : stays d8 d10).
  { split.
    - intros r X E N. destruct (Nat.eq_dec r r9) as [->|Nr]; [unfold record in *; rewrite EX9 in E; injection E as <-; exists Y9; auto|]. destruct (Kp10 r X E Nr) as (Y & EY & P & Q). exists Y. split; [exact EY|apply same_of; assumption].
    - intros r Y E N. destruct (Nat.eq_dec r r9) as [->|Nr]; [unfold record in *; rewrite EY9 in E; injection E as <-; exists X9; auto|]. destruct (Ad10 r Y E Nr) as (X & EX & P & Q). exists X. split; [exact EX|apply same_of; assumption]. }
  assert (Old10 : forall r Y, record d10 r Y -> addrt (rr Y) -> exists X, record d7 r X /\ rr Y = rr X).
  { intros r Y E A. destruct (Nat.eq_dec r r9) as [->|Nr]; [unfold record in *; rewrite EY9 in E; injection E as <-; apply (same_addrt _ _ Sr) in A; contradiction|]. destruct (Ad10 r Y E Nr) as (X & EX & P & _). destruct (Kb8 r X EX) as (V & EV & Q & _). exists V. split; [exact EV|congruence]. }
  assert (New10 : forall r X, record d7 r X -> addrt (rr X) -> exists Y, record d10 r Y /\ rr Y = rr X /\ unique Y = unique X).
  { intros r X E A. destruct (Kp8 r X E) as (V & EV & P & Q). destruct (Kp10 r V EV) as (Y & EY & P' & Q'); [|exists Y; split; [exact EY|]; split; congruence]. intros ->. unfold record in *. rewrite EX9 in EV. injection EV as <-. rewrite P in Na9. contradiction. }
  assert (Sh10 : forall P : answer -> Prop, (forall a, P a -> a_type a <> QTYPE_TXT) -> shows d8 P -> shows d10 P).
  { intros P NP (r & X & EX & HP). destruct (Kp10 r X EX) as (Y & EY & Er & _); [intros ->; unfold record in *; rewrite EX9 in EX; injection EX as <-; exact (NP _ HP T9)|]. exists r, Y. rewrite Er. auto. }
  assert (Of10 : forall host ty ip, ty = QTYPE_A \/ ty = QTYPE_AAAA -> offers d7 host ty ip -> offers d10 host ty ip).
  { intros host ty ip Ty (r & X & (EX & En & Ety) & Wd & Aq). destruct (New10 r X EX) as (Y & EY & Er & _); [unfold addrt; rewrite Ety; exact Ty|]. exists r, Y. unfold of_host, withdrawn, address in *. rewrite Er. auto 6. }
  split; [|split; [|split; [|split; [|split; [|split]]]]].
  - intros r Y EY. destruct (Nat.eq_dec r r9) as [->|Nr].
    + unfold record in *. rewrite EY9 in EY. injection EY as <-. exists s. split; [exact Is|]. left. split; [rewrite <- (same_addrt _ _ Sr); exact Na9|]. right. right. right. left. exact Tx'.
    + destruct (Ad10 r Y EY Nr) as (X & EX & P & _). rewrite P. exact (So8 r X EX).
  - intros s' I. destruct (kept_core d7 d8 s' Kp8 (Co7 s' I)) as (A & B & C & D & E). repeat split.
    + apply Sh10; [intros a (_ & Q & _) Q'; rewrite Q in Q'; discriminate Q'|exact A].
    + apply Sh10; [intros a (_ & Q & _) Q'; rewrite Q in Q'; discriminate Q'|exact B].
    + apply Sh10; [intros a (_ & Q & _) Q'; rewrite Q in Q'; discriminate Q'|exact C].
    + destruct D as (r & X & EX & HP). destruct (Nat.eq_dec r r9) as [->|Nr]; [|destruct (Kp10 r X EX Nr) as (Y & EY & Er & _); exists r, Y; rewrite Er; auto].
      unfold record in *. rewrite EX9 in EX. injection EX as <-. exists r9, Y9. split; [exact EY9|]. assert (s' = s). { apply (nodup_inj _ _ (instance hostname) l); [apply (wn_once _ _ W)|exact I|exact Is|]. destruct HP as (HP & _). congruence. } subst s'. exact Tx'.
    + intros c Ic. apply Sh10; [intros a (_ & Q & _) Q'; rewrite Q in Q'; discriminate Q'|exact (E c Ic)].
  - intros r Y EY A. destruct (Old10 r Y EY A) as (X & EX & Er). unfold withdrawn. rewrite Er in *. exact (Td7 r X EX A).
  - destruct Pl7 as [P4 P6]. split; intros ip O; apply Of10; auto.
  - intros s' I Q. destruct (Pl7' s' I Q) as [P4 P6]. split; intros ip O; apply Of10; auto.
  - exact (stays_trans _ _ _ St7 (stays_trans _ _ _ (kept_stays _ _ Kp8 Kb8) St10)).
  - apply (moved_trans _ _ (hp (R d7)) _ (place_by ifs ifname)); [exact Mv7|]. intros r X E A _. destruct (New10 r X E A) as (Y & EY & Er & Eu). exists Y. split; [exact EY|]. split; [exact Eu|]. rewrite Er. auto 8.
Qed.

Lemma rest_again : forall e rest done d, l = done ++ rest -> 0 <= fst (e_now e) -> e_ifs e = Some ifs -> reach d -> sound' d -> (forall s, In s l -> core d s) -> none_leaving d ifs ifname ->
  (done <> [] -> tidy d) -> (forall s, In s done -> placed d s) ->
  exists d', load_files d e ifname hostname rest = Ok d' /\ reach d' /\ sound' d' /\ (forall s, In s l -> core d' s) /\ (l <> [] -> tidy d') /\ (forall s, In s l -> placed d' s) /\ stays d d' /\ moved (has_place ifs ifname) (hp (R d)) (hp (R d')).
Proof.
  intros e. induction rest as [|s rest IH]; intros done d El T Ei K So Co Nl Td Pl; cbn [load_files].
  - rewrite app_nil_r in El. subst done. exists d. split; [reflexivity|]. repeat (split; [assumption|]). split; [apply stays_refl|apply moved_refl].
  - assert (Is : In s l) by (rewrite El; apply in_app_iff; right; left; reflexivity).
    destruct (load_again e d s Is T Ei K So Co Nl) as (d1 & E1 & K1 & So1 & Co1 & Td1 & Ps & Pl1 & St1 & Mv1). rewrite E1. cbn [bind].
    destruct (IH (done ++ [s]) d1) as (d' & E' & K' & So' & Co' & Td' & Pl' & St' & Mv'); try assumption.
    + rewrite <- app_assoc. exact El.
    + exact (tidy_leaving d1 Td1).
    + intros _. exact Td1.
    + intros s' I. apply in_app_iff in I as [I|[<-|[]]]; [|exact Ps]. apply Pl1; [rewrite El; apply in_app_iff; left; exact I|exact (Pl s' I)].
    + exists d'. split; [exact E'|]. repeat (split; [assumption|]). split; [exact (stays_trans _ _ _ St1 St')|exact (moved_trans _ _ _ _ (place_by ifs ifname) Mv1 Mv')].
Qed.
End Again.

Lemma reloaded : forall d e ifs ifs' ifname hostname l, reach d -> served d ifs ifname hostname l -> 0 <= fst (e_now e) -> e_ifs e = Some ifs' ->
  well_named hostname l -> apart hostname l -> none_leaving d ifs' ifname ->
  exists d', load_files d e ifname hostname l = Ok d' /\ reach d' /\ served d' ifs' ifname hostname l /\
    (forall r X, record d r X -> ~ is_addr (rr X) -> exists Y, record d' r Y /\ same_record X Y) /\
    (forall r Y, record d' r Y -> ~ is_addr (rr Y) -> exists X, record d r X /\ same_record X Y) /\
    (forall r X, record d r X -> is_addr (rr X) -> has_place ifs' ifname (rr X) -> exists Y, record d' r Y /\ rr Y = rr X) /\
    (forall r X, record d r X -> is_addr (rr X) -> ~ has_place ifs' ifname (rr X) -> ~ in_probing X -> exists Y, record d' r Y /\ withdrawn Y).
Proof.
  intros d e ifs ifs' ifname hostname l K [Sc Ss Sd] T Ei W Ap Nl.
  destruct (rest_again ifs' ifname hostname l W Ap e l [] d eq_refl T Ei K) as (d' & E & K' & So' & Co' & Td' & Pl' & St' & Mv').
  { intros r X EX. destruct (Ss r X EX) as (s & I & [P|(A & N & _)]); exists s; (split; [exact I|]); [|right; auto]. assert (Dc : addrt (rr X) \/ ~ addrt (rr X)) by (unfold addrt; lia). destruct Dc as [A|A].
    - right. split; [exact A|]. apply (part_addr _ _ _ _ _ P A).
    - left. split; [exact A|]. exact (part_move _ _ _ _ _ _ A P). }
  { intros s I. destruct (Sc s I) as (A & B & C & D & F & _). unfold core. auto 6. }
  { exact Nl. } { intros Q; contradiction Q; reflexivity. } { intros s []. }
  assert (Td : tidy ifs' ifname d').
  { destruct l as [|s0 l0]; [|apply Td'; discriminate]. intros r Y EY _. destruct (So' r Y EY) as (s & [] & _). }
  exists d'. split; [exact E|]. split; [exact K'|]. split; [|split; [exact (proj1 St')|split; [exact (proj2 St')|split]]].
  - split; [| |exact (stays_double _ _ St' Sd)].
    + intros s I. destruct (Co' s I) as (A & B & C & D & F). destruct (Pl' s I) as [P4 P6]. unfold complete. repeat (split; [assumption|]).
      assert (Q : forall ty ip, ty = QTYPE_A \/ ty = QTYPE_AAAA -> offers d' (target hostname s) ty ip -> exists X, a_type (rr X) = ty /\ address ty X = ip /\ has_place ifs' ifname (rr X)).
      { intros ty ip Ty (r & X & (EX & En & Et) & Wd & Ad). destruct (Td r X EX) as [[Q _]|[_ Q]]; [unfold addrt; rewrite Et; exact Ty|contradiction|]. exists X. auto. }
      split; intros ip; (split; [|auto]); intros O; [destruct (Q QTYPE_A ip ltac:(auto) O) as (X & Et & Ad & [[Q1 Q2]|[Q1 Q2]])|destruct (Q QTYPE_AAAA ip ltac:(auto) O) as (X & Et & Ad & [[Q1 Q2]|[Q1 Q2]])]; rewrite Et in Q1; try discriminate Q1; unfold address in Ad; cbn in Ad; rewrite <- Ad; exact Q2.
    + intros r X EX. destruct (So' r X EX) as (s & I & [[_ P]|[A N]]); exists s; (split; [exact I|]); [left; exact P|]. destruct (Td r X EX A) as [[Q1 Q2]|[Q1 Q2]]; [right; auto|left].
      right. right. right. right. right. split; [exact N|]. split; [exact Q1|exact Q2].
  - intros r X EX A P. destruct (Mv' r X EX A (or_introl P)) as (Y & EY & _ & _ & _ & _ & _ & [Q|[_ Q]]); [|contradiction]. exists Y. auto.
  - intros r X EX A N Np. assert (Pb : probes X = false).
    { destruct (reach_dinv d K) as (qs & H & _). destruct (probes X) eqn:Q; [|reflexivity]. exfalso. apply Np. apply (probes_iff X) in Q; [|apply (ri_u _ _ H r X EX)]. unfold in_probing. lia. }
    destruct (Mv' r X EX A (or_intror Pb)) as (Y & EY & _ & _ & Ety & I4 & I6 & _). exists Y. split; [exact EY|].
    destruct (Td r Y EY) as [[Q _]|[_ Q]]; [unfold addrt; rewrite Ety; exact A|exact Q|]. exfalso. apply N. exact (place_by ifs' ifname _ _ Ety I4 I6 Q).
Qed.
(* What loading the files into a daemon without records leaves is served *)
Lemma services_served : forall d e ifs ifname hostname l, reach d -> (forall r X, ~ record d r X) -> 0 <= fst (e_now e) -> e_ifs e = Some ifs -> well_named hostname l -> apart hostname l ->
  exists d', load_files d e ifname hostname l = Ok d' /\ reach d' /\ served d' ifs ifname hostname l /\ forall ifs', none_leaving d' ifs' ifname.
Proof.
  intros d e ifs ifname hostname l K N T Ei W Ap. destruct (services d e ifs ifname hostname l K N T Ei W Ap) as (d' & E & K' & A & B & C). exists d'. split; [exact E|]. split; [exact K'|]. split; [split; [exact A| |exact C]|].
  - intros r X EX. destruct (B r X EX) as (s & I & P). exists s. auto.
  - intros ifs' r X EX P. destruct (B r X EX) as (s & _ & Q). apply (part_addr _ _ _ _ _ Q). destruct P as [[P _]|[P _]]; [left|right]; exact P.
Qed.
