(* Proofs about what the .service files publish: the services one by one. *)
From Verif Require Import Base SpecDns SpecMap SpecTxt Lemmas Hash Xht SdTxt XhtProofs SdTxtProofs Wire Rec Qry Out In Api RecInv RecSafe RecOps RecAddr DaemonInv SpecDaemon SpecAddr FactsCalls FactsAddr Lib Conf Load SpecConf SpecLoad FactsLoad FactsLoad2.

(* Where the records of a daemon come from *)
Definition comes (d d' : daemon) (Q : answer -> Z -> Prop) : Prop :=
  forall x Y, record d' x Y -> (exists X, record d x X /\ rr Y = rr X /\ unique Y = unique X) \/ Q (rr Y) (unique Y).
Lemma shows_kept : forall d d' P, kept d d' -> shows d P -> shows d' P.
Proof. intros d d' P K (r & X & E & H). destruct (K r X E) as (Y & EY & Er & _). exists r, Y. rewrite Er. auto. Qed.
Lemma offers_kept : forall d d' host ty ip, kept d d' -> offers d host ty ip -> offers d' host ty ip.
Proof. intros d d' host ty ip K (r & X & (E & A & B) & C & D). destruct (K r X E) as (Y & EY & Er & _). exists r, Y. unfold of_host, withdrawn, address in *. rewrite Er. auto 6. Qed.
Lemma kept_trans : forall d1 d2 d3, kept d1 d2 -> kept d2 d3 -> kept d1 d3.
Proof. intros d1 d2 d3 A B x X E. destruct (A x X E) as (Y & EY & P1 & P2). destruct (B x Y EY) as (Z & EZ & P3 & P4). exists Z. split; [exact EZ|]. split; congruence. Qed.

Lemma double_step : forall d d' r Y, no_double d -> kept d d' -> added d d' r -> record d' r Y ->
  ((exists X, record d r X /\ rr Y = rr X) \/ addrt (rr Y) \/ forall x X, record d x X -> ~ (a_name (rr X) = a_name (rr Y) /\ a_type (rr X) = a_type (rr Y) /\ a_rdname (rr X) = a_rdname (rr Y))) -> no_double d'.
Proof.
  intros d d' r Y N K A EY C x X x' X' EX EX' T4 T6 En Et Ed.
  assert (Old : forall y V, record d' y V -> y <> r -> exists Z, record d y Z /\ rr V = rr Z) by (intros y V EV Ny; destruct (A y V EV Ny) as (Z & EZ & P & _); eauto).
  assert (Both : forall y V y' V', record d y V -> record d y' V' -> rr V = rr X -> rr V' = rr X' -> y = y') by (intros y V y' V' E1 E2 R1 R2; apply (N y V y' V' E1 E2); rewrite ?R1, ?R2; assumption).
  destruct (Nat.eq_dec x r) as [->|D]; destruct (Nat.eq_dec x' r) as [->|D']; [reflexivity| | |].
  - unfold record in *. rewrite EY in EX. injection EX as <-. destruct (Old x' X' EX' D') as (Z' & EZ' & R'). destruct C as [(Z & EZ & R)|[C|C]].
    + exact (Both r Z x' Z' EZ EZ' (eq_sym R) (eq_sym R')).
    + destruct C; contradiction.
    + exfalso. apply (C x' Z' EZ'). rewrite <- R'. auto.
  - unfold record in *. rewrite EY in EX'. injection EX' as <-. destruct (Old x X EX D) as (Z & EZ & R). destruct C as [(Z' & EZ' & R')|[C|C]].
    + exact (Both x Z r Z' EZ EZ' (eq_sym R) (eq_sym R')).
    + exfalso. destruct C as [C|C]; [apply T4|apply T6]; congruence.
    + exfalso. apply (C x Z EZ). rewrite <- R. auto.
  - destruct (Old x X EX D) as (Z & EZ & R). destruct (Old x' X' EX' D') as (Z' & EZ' & R'). exact (Both x Z x' Z' EZ EZ' (eq_sym R) (eq_sym R')).
Qed.

(* record() for PTR and CNAME *)
Definition points (ty : Z) (n to : list Z) (a : answer) : Prop := a_name a = n /\ a_type a = ty /\ a_rdname a = Some to /\ a_ttl a = 120.
Lemma named_do : forall d e host name ty, reach d -> 0 <= fst (e_now e) ->
  clear_way d host name ty ->
  (forall x X, record d x X -> a_type (rr X) = ty -> a_ttl (rr X) = 120) ->
  exists d' r, conf_record d e true (Some host) name ty 120 = Ok (d', r) /\ reach d' /\ kept d d' /\ shows d' (points ty name host) /\
    comes d d' (fun a _ => points ty name host a) /\ (no_double d -> no_double d').
Proof.
  intros d e host name ty K T C T120. destruct (record_named d e host name ty 120 K T C) as (d' & r & Y & E & K' & Kp & Ad & EY & N1 & N2 & N3 & D).
  exists d', r. split; [exact E|]. split; [exact K'|]. split; [exact Kp|].
  assert (Pt : points ty name host (rr Y)).
  { split; [exact N1|]. split; [exact N2|]. split; [exact N3|]. destruct D as [(X & EX & Er)|(_ & D & _)]; [|exact D]. rewrite Er in *. exact (T120 r X EX N2). }
  split; [exists r, Y; auto|]. split.
  - intros x Z EZ. destruct (Nat.eq_dec x r) as [->|Nx]; [|left; exact (Ad x Z EZ Nx)]. unfold record in *. rewrite EY in EZ. injection EZ as <-. right. exact Pt.
  - intros ND. apply (double_step d d' r Y ND Kp Ad EY). destruct D as [D|(_ & _ & D)]; [left; exact D|]. right. right. intros x X EX. rewrite N1, N2, N3. exact (D x X EX).
Qed.
(* record() for an address *)
Lemma place_do : forall d e name ty, reach d -> 0 <= fst (e_now e) -> ty = QTYPE_A \/ ty = QTYPE_AAAA ->
  exists d' r, conf_record d e false None name ty 120 = Ok (d', r) /\ reach d' /\ kept d d' /\ shows d' (fun a => a_name a = name /\ a_type a = ty) /\
    comes d d' (fun a u => a = new_answer name ty 120 /\ u = 1) /\ (no_double d -> no_double d').
Proof.
  intros d e name ty K T Ty. destruct (record_own d e name ty 120 K T) as (d' & r & Y & E & K' & Kp & Ad & EY & N1 & N2 & D).
  exists d', r. split; [exact E|]. split; [exact K'|]. split; [exact Kp|]. split; [exists r, Y; auto|]. split.
  - intros x Z EZ. destruct (Nat.eq_dec x r) as [->|Nx]; [|left; exact (Ad x Z EZ Nx)]. unfold record in *. rewrite EY in EZ. injection EZ as <-. destruct D as [D|(_ & D1 & D2 & _)]; [left; exact D|right; auto].
  - intros ND. apply (double_step d d' r Y ND Kp Ad EY). right. left. unfold addrt. rewrite N2. exact Ty.
Qed.
(* record() and setting the data, when there is none of this name and type *)
Lemma own_do : forall d e name ty ttl (o : nat -> op) f, reach d -> 0 <= fst (e_now e) -> keeps_id f ->
  (forall d r, live d r -> legal d e (o r)) -> (forall d r, step d e (o r) = on_recs d (mdnsd_set (R d) (now d) r f)) ->
  (forall x X, record d x X -> ~ (a_name (rr X) = name /\ a_type (rr X) = ty)) ->
  exists d1 r d2, conf_record d e false None name ty ttl = Ok (d1, r) /\ step d1 e (o r) = Ok (d2, RUnit) /\ reach d2 /\ kept d d2 /\ shows d2 (fun a => a = f (new_answer name ty ttl)) /\
    comes d d2 (fun a _ => a = f (new_answer name ty ttl)) /\ (no_double d -> no_double d2).
Proof.
  intros d e name ty ttl o f K T Kf Lo So Fr. destruct (record_own d e name ty ttl K T) as (d1 & r & Y & E & K1 & Kp & Ad & EY & N1 & N2 & D).
  destruct D as [(X & EX & Er & _)|(Nr & RY & _ & _)]. { exfalso. apply (Fr r X EX). rewrite <- Er. auto. }
  destruct (set_do d1 e (o r) f r Y K1) as (d2 & Z & E2 & K2 & EZ & RZ & _ & Ad2 & Kp2); [apply Lo; unfold live, record in *; congruence|exact Kf|apply So|exact EY|].
  rewrite RY in RZ. exists d1, r, d2. split; [exact E|]. split; [exact E2|]. split; [exact K2|].
  assert (Kp' : kept d d2).
  { intros x X EX. destruct (Kp x X EX) as (V & EV & P1 & P2). destruct (Kp2 x V EV) as (U & EU & P3 & P4); [intros ->; exact (Nr X EX)|]. exists U. split; [exact EU|]. split; congruence. }
  assert (Ad' : added d d2 r).
  { intros x V EV Nx. destruct (Ad2 x V EV Nx) as (U & EU & P1 & P2). destruct (Ad x U EU Nx) as (X & EX & P3 & P4). exists X. split; [exact EX|]. split; congruence. }
  split; [exact Kp'|]. split; [exists r, Z; auto|]. split.
  - intros x V EV. destruct (Nat.eq_dec x r) as [->|Nx]; [|left; exact (Ad' x V EV Nx)]. unfold record in *. rewrite EZ in EV. injection EV as <-. right. exact RZ.
  - intros ND. apply (double_step d d2 r Z ND Kp' Ad' EZ). right. right. intros x X EX (A & B & _). apply (Fr x X EX). destruct (Kf (new_answer name ty ttl)) as (I1 & I2 & _). rewrite RZ in A, B. rewrite I1 in A. rewrite I2 in B. auto.
Qed.

(* ------------------------------------------------------------------ *)
Section Loading.
Variables (ifs : list ifaddr) (ifname hostname : list Z) (l : list conf_srec).
Hypothesis W : well_named hostname l.
Hypothesis Ap : apart hostname l.

Notation part := (part_of ifs ifname hostname).
Definition sound (done : list conf_srec) (d : daemon) : Prop := forall r X, record d r X -> exists s, In s done /\ part s (rr X).
Definition has (d : daemon) (s : conf_srec) : Prop :=
  shows d (is_ptr meta (service_type s)) /\ shows d (is_ptr (service_type s) (instance hostname s)) /\ shows d (is_srv (instance hostname s) (s_port s mod 65536) (target hostname s)) /\
  shows d (is_txt (instance hostname s) (s_txt s)) /\ (forall c, In c (aliases s) -> shows d (is_cname c (target hostname s))) /\
  (forall ip, on_interface ifs ifname AF_INET ip -> offers d (target hostname s) QTYPE_A ip) /\ (forall ip, on_interface ifs ifname AF_INET6 ip -> offers d (target hostname s) QTYPE_AAAA ip).
Lemma has_kept : forall d d' s, kept d d' -> has d s -> has d' s.
Proof. intros d d' s K (A & B & C & D & E & F & G). repeat split; eauto using shows_kept, offers_kept. Qed.

(* the roles of the names *)
Definition role (a : answer) : Prop :=
  (a_type a = QTYPE_PTR /\ listing l (a_name a) /\ exists s to, In s l /\ a_rdname a = Some to /\ ((a_name a = meta /\ to = service_type s) \/ (a_name a = service_type s /\ to = instance hostname s))) \/
  (exists s, In s l /\ (a_type a = QTYPE_SRV \/ a_type a = QTYPE_TXT) /\ a_name a = instance hostname s) \/
  (exists s, In s l /\ addrt a /\ a_name a = target hostname s) \/
  (exists s, In s l /\ a_type a = QTYPE_CNAME /\ a_rdname a = Some (target hostname s) /\ In (a_name a) (aliases s)).
Lemma part_role : forall s a, In s l -> part s a -> role a.
Proof.
  intros s a I [(A & B & C & _)|[(A & B & C & _)|[(A & B & _)|[(A & B & _)|[(c & Ic & A & B & C & _)|(A & _ & B)]]]]]; unfold role.
  - left. split; [exact B|]. split; [left; exact A|]. exists s, (service_type s). auto.
  - left. split; [exact B|]. split; [right; eauto|]. exists s, (instance hostname s). auto.
  - right. left. eauto.
  - right. left. eauto.
  - right. right. right. exists s. rewrite C, A. auto.
  - right. right. left. exists s. split; [exact I|]. split; [unfold addrt; tauto|exact A].
Qed.
Definition known (n : list Z) : Prop := In n (meta :: flat_map (names_of hostname) l).
Lemma known_of : forall s n, In s l -> In n (names_of hostname s) -> known n.
Proof. intros s n I J. right. apply in_flat_map. eauto. Qed.
Lemma role_known : forall a, role a -> known (a_name a).
Proof.
  intros a [(_ & [->|(s & I & ->)] & _)|[(s & I & _ & ->)|[(s & I & _ & ->)|(s & I & _ & _ & J)]]]; [left; reflexivity| | | |]; apply (known_of s _ I); unfold names_of; cbn [In]; auto.
Qed.
Definition rough (d : daemon) : Prop := forall r X, record d r X -> role (rr X).
Lemma chain_bucket : forall d n x X, reach d -> In x (mdnsd_get_published (R d) n) -> record d x X -> rbucket n = rbucket (a_name (rr X)).
Proof.
  intros d n x X K I EX. destruct (reach_dinv d K) as (qs & H & _).
  destruct (pok_chain_live (R d) n x (ri_p _ _ H) I) as (X' & EX' & B). unfold record in EX. rewrite EX in EX'. injection EX' as <-. symmetry. exact B.
Qed.
Lemma role_type : forall a n, role a -> a_name a = n -> listing l n -> a_type a = QTYPE_PTR /\ a_rdname a <> None.
Proof.
  intros a n [(A & _ & s & to & _ & B & _)|[(s & I & _ & A)|[(s & I & _ & A)|(s & I & _ & _ & A)]]] En Tn; [split; [exact A|rewrite B; discriminate]|exfalso..]; destruct (wn_types _ _ W s n I Tn) as (N1 & N2 & N3); [apply N1|apply N2|apply N3]; congruence.
Qed.
Lemma role_alias : forall a s n, role a -> a_name a = n -> In s l -> In n (aliases s) -> a_type a = QTYPE_CNAME /\ a_rdname a <> None.
Proof.
  intros a s n [(_ & A & _)|[(s' & I & _ & A)|[(s' & I & _ & A)|(s' & I & A & B & _)]]] En Is Ia; [exfalso..|split; [exact A|rewrite B; discriminate]].
  - rewrite En in A. destruct (wn_types _ _ W s n Is A) as (_ & _ & N). contradiction.
  - destruct (wn_alias _ _ W s s' n Is I Ia) as [N _]. congruence.
  - destruct (wn_alias _ _ W s s' n Is I Ia) as [_ N]. congruence.
Qed.
Lemma role_link : forall a, role a -> a_type a = QTYPE_PTR \/ a_type a = QTYPE_CNAME -> exists to, a_rdname a = Some to /\ In (a_name a, to) (flat_map (links hostname) l).
Proof.
  intros a [(A & _ & s & to & I & B & C)|[(s & I & A & _)|[(s & I & A & _)|(s & I & A & B & C)]]] T.
  - exists to. split; [exact B|]. apply in_flat_map. exists s. split; [exact I|]. unfold links. destruct C as [[-> ->]|[-> ->]]; [left|right; left]; reflexivity.
  - exfalso. unfold QTYPE_PTR, QTYPE_CNAME, QTYPE_SRV, QTYPE_TXT in *. lia.
  - exfalso. unfold addrt, QTYPE_PTR, QTYPE_CNAME, QTYPE_A, QTYPE_AAAA in *. lia.
  - exists (target hostname s). split; [exact B|]. apply in_flat_map. exists s. split; [exact I|]. right. right. apply in_map_iff. eauto.
Qed.
Lemma links_dec : forall n to (L : list (list Z * list Z)), (exists b, In (n, b) L /\ b <> to) \/ (forall b, In (n, b) L -> b = to).
Proof.
  intros n to. induction L as [|[m b] L IH]; [right; intros b []|]. destruct IH as [(b' & I & N)|IH]; [left; exists b'; split; [right; exact I|exact N]|].
  destruct (list_eq_dec Z.eq_dec m n) as [->|Nm]; [destruct (list_eq_dec Z.eq_dec b to) as [->|Nb]|].
  - right. intros b [Q|I]; [congruence|exact (IH b I)].
  - left. exists b. split; [left; reflexivity|exact Nb].
  - right. intros b' [Q|I]; [congruence|exact (IH b' I)].
Qed.
Lemma way : forall d n to ty, reach d -> rough d -> ((ty = QTYPE_PTR /\ listing l n /\ exists s, In s l /\ ((n = meta /\ to = service_type s) \/ (n = service_type s /\ to = instance hostname s))) \/
    (ty = QTYPE_CNAME /\ exists s, In s l /\ In n (aliases s) /\ to = target hostname s)) -> clear_way d to n ty.
Proof.
  intros d n to ty K Ro Kd.
  assert (Lk : In (n, to) (flat_map (links hostname) l)).
  { destruct Kd as [(_ & _ & s & I & C)|(_ & s & I & C & ->)]; apply in_flat_map; exists s; (split; [exact I|]); unfold links; [destruct C as [[-> ->]|[-> ->]]; [left|right; left]; reflexivity|right; right; apply in_map_iff; eauto]. }
  assert (Ty : ty = QTYPE_PTR \/ ty = QTYPE_CNAME) by tauto.
  destruct (links_dec n to (flat_map (links hostname) l)) as [(b & Ib & Nb)|One].
  - left. intros x X I E. pose proof (chain_bucket d n x X K I E) as B. pose proof (Ro x X E) as Rx.
    destruct (Ap n (a_name (rr X))) as [Q|[Ln Lm]]; [exists to, b; auto|apply role_known; exact Rx|exact B| |].
    + destruct Kd as [(-> & L & _)|(-> & s & Is & Ia & _)].
      * destruct (role_type _ n Rx (eq_sym Q) L) as [T1 T2]. auto.
      * destruct (role_alias _ s n Rx (eq_sym Q) Is Ia) as [T1 T2]. auto.
    + destruct (role_type _ _ Rx eq_refl Lm) as [T1 T2]. split; [exact T2|]. intros D. destruct Kd as [(-> & L & s & Is & C)|(_ & s & Is & Ia & _)].
      2:{ exfalso. destruct (wn_types _ _ W s n Is Ln) as (_ & _ & N). contradiction. }
      split; [|exact T1]. destruct Rx as [(_ & _ & s' & to' & Is' & D' & C')|[(s' & _ & Q & _)|[(s' & _ & Q & _)|(s' & _ & Q & _)]]].
      2:{ exfalso. unfold QTYPE_PTR, QTYPE_SRV, QTYPE_TXT in *. lia. }
      2:{ exfalso. unfold addrt, QTYPE_PTR, QTYPE_A, QTYPE_AAAA in *. lia. }
      2:{ exfalso. unfold QTYPE_PTR, QTYPE_CNAME in *. lia. }
      rewrite D in D'. injection D' as <-. destruct C as [[-> ->]|[-> ->]]; destruct C' as [[-> C']|[-> C']].
      * reflexivity.
      * exfalso. destruct (wn_types _ _ W s' (service_type s) Is') as (N & _); [right; eauto|contradiction].
      * exfalso. destruct (wn_types _ _ W s (service_type s') Is) as (N & _); [right; eauto|congruence].
      * f_equal. pose proof (wn_once _ _ W) as O. symmetry. clear -O Is Is' C'. induction l as [|z t IH]; [destruct Is|]. cbn [map] in O. apply NoDup_cons_iff in O as [O1 O2].
        destruct Is as [<-|Is]; destruct Is' as [<-|Is']; [reflexivity|exfalso; apply O1; rewrite C'; apply in_map; exact Is'|exfalso; apply O1; rewrite <- C'; apply in_map; exact Is|exact (IH Is Is' O2)].
  - right. intros x X E N T. destruct (role_link _ (Ro x X E)) as (to' & D & I'); [rewrite T; exact Ty|]. rewrite N in I'. rewrite D. f_equal. exact (One to' I').
Qed.

Lemma types : NoDup [QTYPE_A; QTYPE_AAAA; QTYPE_PTR; QTYPE_SRV; QTYPE_TXT; QTYPE_CNAME].
Proof. repeat constructor; vm_compute; intros K; repeat (destruct K as [K|K]; [discriminate K|]); exact K. Qed.
Lemma part_ptr : forall s a, part s a -> a_type a = QTYPE_PTR -> a_ttl a = 120.
Proof.
  intros s a P T. unfold QTYPE_PTR in T. destruct P as [P|[P|[P|[P|[(c & _ & P)|P]]]]]; unfold is_ptr, is_srv, is_txt, is_cname, is_address, QTYPE_PTR, QTYPE_SRV, QTYPE_TXT, QTYPE_CNAME, QTYPE_A, QTYPE_AAAA in P; try apply P; exfalso; destruct P as (? & P); lia.
Qed.
Lemma part_cname : forall s a, part s a -> a_type a = QTYPE_CNAME -> a_ttl a = 120.
Proof.
  intros s a P T. unfold QTYPE_CNAME in T. destruct P as [P|[P|[P|[P|[(c & _ & P)|P]]]]]; unfold is_ptr, is_srv, is_txt, is_cname, is_address, QTYPE_PTR, QTYPE_SRV, QTYPE_TXT, QTYPE_CNAME, QTYPE_A, QTYPE_AAAA in P; try apply P; exfalso; destruct P as (? & P); lia.
Qed.
Lemma part_srv : forall s a, part s a -> a_type a = QTYPE_SRV -> a_name a = instance hostname s.
Proof.
  intros s a P T. unfold QTYPE_SRV in T. destruct P as [P|[P|[P|[P|[(c & _ & P)|P]]]]]; unfold is_ptr, is_srv, is_txt, is_cname, is_address, QTYPE_PTR, QTYPE_SRV, QTYPE_TXT, QTYPE_CNAME, QTYPE_A, QTYPE_AAAA in P; try apply P; exfalso; destruct P as (? & P); lia.
Qed.
Lemma part_txt : forall s a, part s a -> a_type a = QTYPE_TXT -> a_name a = instance hostname s.
Proof.
  intros s a P T. unfold QTYPE_TXT in T. destruct P as [P|[P|[P|[P|[(c & _ & P)|P]]]]]; unfold is_ptr, is_srv, is_txt, is_cname, is_address, QTYPE_PTR, QTYPE_SRV, QTYPE_TXT, QTYPE_CNAME, QTYPE_A, QTYPE_AAAA in P; try apply P; exfalso; destruct P as (? & P); lia.
Qed.
Lemma part_addr : forall s a, part s a -> addrt a -> is_address ifs ifname (target hostname s) a.
Proof.
  intros s a P T. unfold addrt, QTYPE_A, QTYPE_AAAA in T. destruct P as [P|[P|[P|[P|[(c & _ & P)|P]]]]]; [exfalso..|exact P]; unfold is_ptr, is_srv, is_txt, is_cname, QTYPE_PTR, QTYPE_SRV, QTYPE_TXT, QTYPE_CNAME in P; destruct P as (? & P); lia.
Qed.
Lemma sound_more : forall done s d, sound done d -> sound (done ++ [s]) d.
Proof. intros done s d S r X E. destruct (S r X E) as (s' & I & P). exists s'. split; [apply in_app_iff; auto|exact P]. Qed.
Lemma sound_rough : forall done d, (forall s, In s done -> In s l) -> sound done d -> rough d.
Proof. intros done d I S r X E. destruct (S r X E) as (s & Is & P). exact (part_role s _ (I s Is) P). Qed.
Lemma sound_step : forall done d d' Q, sound done d -> comes d d' Q -> (forall a u, Q a u -> exists s, In s done /\ part s a) -> sound done d'.
Proof. intros done d d' Q S C H r Y EY. destruct (C r Y EY) as [(X & EX & Er & _)|K]; [rewrite Er; exact (S r X EX)|exact (H _ _ K)]. Qed.

Definition inv (done : list conf_srec) (d : daemon) : Prop := reach d /\ sound done d /\ (forall s, In s done -> has d s) /\ no_double d.

Lemma load_one : forall e done s rest d, l = done ++ s :: rest -> 0 <= fst (e_now e) -> e_ifs e = Some ifs -> inv done d -> exists d', load d e ifname hostname s = Ok d' /\ inv (done ++ [s]) d'.
Proof.
  intros e done s rest d El T Ei (K & So & Ha & Nd).
  assert (Is : In s l) by (rewrite El; apply in_app_iff; right; left; reflexivity).
  assert (Id : forall s', In s' (done ++ [s]) -> In s' l) by (intros s' I; rewrite El; apply in_app_iff; apply in_app_iff in I as [I|[<-|[]]]; [auto|right; left; reflexivity]).
  assert (Isd : In s (done ++ [s])) by (apply in_app_iff; right; left; reflexivity).
  assert (Nw : forall s', In s' done -> instance hostname s' <> instance hostname s).
  { intros s' I E. pose proof (wn_once _ _ W) as O. rewrite El, map_app in O. cbn [map] in O. apply NoDup_remove_2 in O. apply O. apply in_app_iff. left. rewrite <- E. apply in_map. exact I. }
  pose proof (wn_short _ _ W s) as Sh. pose proof (fun n J => Sh n Is J) as Sh'. clear Sh. unfold names_of in Sh'. cbn [In] in Sh'.
  assert (Et : tlocal s = service_type s) by (apply tlocal_eq, Sh'; auto). assert (Eh : hlocal s hostname = instance hostname s) by (apply hlocal_eq, Sh'; auto).
  assert (Eg : tgtlocal s hostname = target hostname s) by (apply tgtlocal_eq, Sh'; auto).
  unfold load. rewrite Et, Eh, Eg, meta_eq. set (l1 := done ++ [s]) in *.
  pose proof (sound_more done s d So) as S0. fold l1 in S0.
  assert (Ptr : forall l d, sound l d -> forall x X, record d x X -> a_type (rr X) = QTYPE_PTR -> a_ttl (rr X) = 120) by (intros l' d' S x X E; destruct (S x X E) as (s' & _ & P); exact (part_ptr s' _ P)).
  (* the PTR of the type *)
  destruct (named_do d e (service_type s) meta QTYPE_PTR K T) as (d1 & r1 & E1 & K1 & Kp1 & Sh1 & C1 & N1).
  { apply (way d meta (service_type s) QTYPE_PTR K (sound_rough l1 d Id S0)). left. split; [reflexivity|]. split; [left; reflexivity|]. exists s. auto. }
  { exact (Ptr l1 d S0). }
  rewrite E1. cbn [bind].
  assert (S1 : sound l1 d1) by (apply (sound_step l1 d d1 _ S0 C1); intros a _ P; exists s; split; [exact Isd|left; exact P]).
  (* the PTR of the instance *)
  destruct (named_do d1 e (instance hostname s) (service_type s) QTYPE_PTR K1 T) as (d2 & r2 & E2 & K2 & Kp2 & Sh2 & C2 & N2).
  { apply (way d1 (service_type s) (instance hostname s) QTYPE_PTR K1 (sound_rough l1 d1 Id S1)). left. split; [reflexivity|]. split; [right; eauto|]. exists s. auto. }
  { exact (Ptr l1 d1 S1). }
  rewrite E2. cbn [bind].
  assert (S2 : sound l1 d2) by (apply (sound_step l1 d1 d2 _ S1 C2); intros a _ P; exists s; split; [exact Isd|right; left; exact P]).
  (* records of this instance: only those made here *)
  assert (Fr : forall ty, ty = QTYPE_SRV \/ ty = QTYPE_TXT -> forall r X, record d r X -> ~ (a_name (rr X) = instance hostname s /\ a_type (rr X) = ty)).
  { intros ty Ty r X E [A B]. destruct (So r X E) as (s' & I & P). apply (Nw s' I). destruct Ty as [->| ->]; [rewrite <- (part_srv s' _ P B)|rewrite <- (part_txt s' _ P B)]; exact A. }
  assert (Fr2 : forall ty, ty = QTYPE_SRV \/ ty = QTYPE_TXT -> forall r X, record d2 r X -> ~ (a_name (rr X) = instance hostname s /\ a_type (rr X) = ty)).
  { intros ty Ty r X E [A B]. assert (Tp : ty <> QTYPE_PTR) by (destruct Ty as [-> | ->]; discriminate).
    destruct (C2 r X E) as [(X1 & EX1 & R1 & _)|(_ & Q & _)]; [|congruence]. destruct (C1 r X1 EX1) as [(X0 & EX0 & R0 & _)|(_ & Q & _)]; [|congruence]. apply (Fr ty Ty r X0 EX0). rewrite <- R0, <- R1. auto. }
  (* the SRV *)
  destruct (own_do d2 e (instance hostname s) QTYPE_SRV 120 (fun r => OSetSrv r 0 0 (s_port s mod 65536) (target hostname s)) (fun a => put_host (target hostname s) (put_srv 0 0 (s_port s mod 65536) a)) K2 T) as (d3 & r3 & d4 & E3 & E4 & K4 & Kp4 & Sh4 & C4 & N4).
  { apply keeps_srv. } { intros d' r L. split; [exact T|exact L]. } { reflexivity. } { apply Fr2. auto. }
  rewrite E3. cbn [bind]. rewrite E4. cbn [bind].
  assert (S4 : sound l1 d4) by (apply (sound_step l1 d2 d4 _ S2 C4); intros a _ ->; exists s; split; [exact Isd|right; right; left; repeat split]).
  (* the addresses *)
  destruct (place_do d4 e (target hostname s) QTYPE_A K4 T ltac:(auto)) as (d5 & r5 & E5 & K5 & Kp5 & Sh5 & C5 & N5). rewrite E5. cbn [bind].
  destruct (place_do d5 e (target hostname s) QTYPE_AAAA K5 T ltac:(auto)) as (d6 & r6 & E6 & K6 & Kp6 & Sh6 & C6 & N6). rewrite E6. cbn [bind].
  assert (S6 : forall r X, record d6 r X -> (exists s', In s' l1 /\ part s' (rr X)) \/ (unique X = 1 /\ a_ttl (rr X) <> 0 /\ addrt (rr X) /\ a_name (rr X) = target hostname s)).
  { intros r X E. assert (Q : forall ty, ty = QTYPE_A \/ ty = QTYPE_AAAA -> rr X = new_answer (target hostname s) ty 120 -> a_ttl (rr X) <> 0 /\ addrt (rr X) /\ a_name (rr X) = target hostname s).
    { intros ty Ty ->. unfold addrt. cbn [new_answer a_ttl a_type a_name]. split; [lia|]. split; [exact Ty|reflexivity]. }
    destruct (C6 r X E) as [(X1 & EX1 & R1 & U1)|(A & B)]; [|right; split; [exact B|]; apply (Q QTYPE_AAAA); auto].
    destruct (C5 r X1 EX1) as [(X0 & EX0 & R0 & U0)|(A & B)]; [|right; split; [congruence|]; apply (Q QTYPE_A); [auto|congruence]]. left. rewrite R1, R0. exact (S4 r X0 EX0). }
  destruct (ifaddrs_do d6 e ifname ifs K6 T Ei) as (d7 & x7 & E7 & K7 & Fw & Bk & Ad & Of).
  { intros r X E A. destruct (S6 r X E) as [(s' & I & P)|(A1 & A2 & _)]; [|auto]. destruct (part_addr s' _ P A) as (_ & B1 & B2). split; [exact B1|]. right. exact B2. }
  rewrite E7. cbn [bind].
  assert (S7 : sound l1 d7).
  { intros r Y EY. assert (Dc : addrt (rr Y) \/ ~ addrt (rr Y)) by (unfold addrt; lia). destruct Dc as [A|A].
    - destruct (Ad r Y EY A) as (B1 & B2 & r0 & X0 & E0 & Nm & A0). assert (G : exists s', In s' l1 /\ a_name (rr Y) = target hostname s').
      { rewrite <- Nm. destruct (S6 r0 X0 E0) as [(s' & I & P)|(_ & _ & _ & Q)]; [|eauto]. exists s'. split; [exact I|]. apply (part_addr s' _ P A0). }
      destruct G as (s' & I & En). exists s'. split; [exact I|]. right. right. right. right. right. split; [exact En|]. split; [exact B1|exact B2].
    - destruct (Bk r Y EY A) as (X & EX & Er). rewrite Er in *. destruct (S6 r X EX) as [Q|(_ & _ & Q & _)]; [exact Q|contradiction]. }
  assert (N7 : no_double d7).
  { intros x X x' X' EX EX' T4 T6 En Et' Ed. destruct (Bk x X EX) as (Z & EZ & RZ); [intros [Q|Q]; contradiction|]. destruct (Bk x' X' EX') as (Z' & EZ' & RZ'); [intros [Q|Q]; congruence|].
    apply (N6 (N5 (N4 (N2 (N1 Nd)))) x Z x' Z' EZ EZ'); rewrite <- ?RZ, <- ?RZ'; assumption. }
  assert (Kp06 : kept d d6) by eauto 8 using kept_trans.
  assert (Sh7 : forall P : answer -> Prop, (forall a, P a -> ~ addrt a) -> shows d6 P -> shows d7 P).
  { intros P NP (r & X & EX & HP). destruct (Fw r X EX (NP _ HP)) as (Y & EY & Er). exists r, Y. rewrite Er. auto. }
  assert (H7 : forall s', In s' done -> has d7 s').
  { intros s' I. pose proof (has_kept d d6 s' Kp06 (Ha s' I)) as (A & B & C & D & E & F & G).
    assert (Hh : forall r X ty, of_host d6 (target hostname s') ty r X -> ty = QTYPE_A \/ ty = QTYPE_AAAA -> (forall ip, on_interface ifs ifname AF_INET ip -> offers d7 (target hostname s') QTYPE_A ip) /\ (forall ip, on_interface ifs ifname AF_INET6 ip -> offers d7 (target hostname s') QTYPE_AAAA ip)).
    { intros r X ty (EX & En & Ety) Ty. apply (Of (target hostname s') r X EX En). unfold addrt. rewrite Ety. exact Ty. }
    repeat apply conj.
    - apply Sh7; [intros a (_ & Q & _); unfold addrt; rewrite Q; unfold QTYPE_PTR, QTYPE_A, QTYPE_AAAA; lia|exact A].
    - apply Sh7; [intros a (_ & Q & _); unfold addrt; rewrite Q; unfold QTYPE_PTR, QTYPE_A, QTYPE_AAAA; lia|exact B].
    - apply Sh7; [intros a (_ & Q & _); unfold addrt; rewrite Q; unfold QTYPE_SRV, QTYPE_A, QTYPE_AAAA; lia|exact C].
    - apply Sh7; [intros a (_ & Q & _); unfold addrt; rewrite Q; unfold QTYPE_TXT, QTYPE_A, QTYPE_AAAA; lia|exact D].
    - intros c Ic. apply Sh7; [intros a (_ & Q & _); unfold addrt; rewrite Q; unfold QTYPE_CNAME, QTYPE_A, QTYPE_AAAA; lia|exact (E c Ic)].
    - intros ip O. destruct (F ip O) as (r & X & HX & _). apply (Hh r X QTYPE_A HX); auto.
    - intros ip O. destruct (G ip O) as (r & X & HX & _). apply (Hh r X QTYPE_AAAA HX); auto. }
  assert (Of7 : (forall ip, on_interface ifs ifname AF_INET ip -> offers d7 (target hostname s) QTYPE_A ip) /\ (forall ip, on_interface ifs ifname AF_INET6 ip -> offers d7 (target hostname s) QTYPE_AAAA ip)).
  { destruct Sh6 as (r & X & EX & En & Ety). apply (Of (target hostname s) r X EX En). right. exact Ety. }
  assert (P7 : shows d7 (is_ptr meta (service_type s)) /\ shows d7 (is_ptr (service_type s) (instance hostname s)) /\ shows d7 (is_srv (instance hostname s) (s_port s mod 65536) (target hostname s))).
  { assert (Kp26 : kept d2 d6) by eauto using kept_trans. assert (Kp16 : kept d1 d6) by eauto using kept_trans. assert (Kp46 : kept d4 d6) by eauto using kept_trans. repeat apply conj.
    - apply Sh7; [intros a (_ & Q & _); unfold addrt; rewrite Q; unfold QTYPE_PTR, QTYPE_A, QTYPE_AAAA; lia|exact (shows_kept _ _ _ Kp16 Sh1)].
    - apply Sh7; [intros a (_ & Q & _); unfold addrt; rewrite Q; unfold QTYPE_PTR, QTYPE_A, QTYPE_AAAA; lia|exact (shows_kept _ _ _ Kp26 Sh2)].
    - apply Sh7; [intros a (_ & Q & _); unfold addrt; rewrite Q; unfold QTYPE_SRV, QTYPE_A, QTYPE_AAAA; lia|]. apply (shows_kept _ _ _ Kp46). destruct Sh4 as (r & X & EX & ER). exists r, X. split; [exact EX|]. rewrite ER. repeat split. }
  (* no TXT of this instance yet *)
  assert (Fr7 : forall r X, record d7 r X -> ~ (a_name (rr X) = instance hostname s /\ a_type (rr X) = QTYPE_TXT)).
  { intros r X E [A B]. destruct (Bk r X E) as (X6 & EX6 & R6); [unfold addrt; rewrite B; unfold QTYPE_TXT, QTYPE_A, QTYPE_AAAA; lia|].
    destruct (C6 r X6 EX6) as [(X5 & EX5 & R5 & _)|(Q & _)]; [|rewrite R6, Q in B; discriminate B].
    destruct (C5 r X5 EX5) as [(X4 & EX4 & R4 & _)|(Q & _)]; [|rewrite R6, R5, Q in B; discriminate B].
    destruct (C4 r X4 EX4) as [(X2 & EX2 & R2 & _)|Q]; [|rewrite R6, R5, R4, Q in B; discriminate B].
    apply (Fr2 QTYPE_TXT (or_intror eq_refl) r X2 EX2). rewrite <- R2, <- R4, <- R5, <- R6. auto. }
  (* the CNAME *)
  assert (C8 : exists d8, match s_cname s with Some c => '(d, _) <- conf_record d7 e true (Some (target hostname s)) (fqdn c) QTYPE_CNAME 120;; Ok d | None => Ok d7 end = Ok d8 /\ reach d8 /\ kept d7 d8 /\ sound l1 d8 /\ no_double d8 /\
    (forall c, In c (aliases s) -> shows d8 (is_cname c (target hostname s))) /\ (forall r X, record d8 r X -> ~ (a_name (rr X) = instance hostname s /\ a_type (rr X) = QTYPE_TXT))).
  { unfold aliases in *. destruct (s_cname s) as [c|] eqn:Ec.
    2:{ exists d7. split; [reflexivity|]. split; [exact K7|]. split; [apply kept_refl|]. split; [exact S7|]. split; [exact N7|]. split; [intros c []|exact Fr7]. }
    assert (Ia : In (rooted c) (aliases s)) by (unfold aliases; rewrite Ec; left; reflexivity).
    assert (Ef : fqdn c = rooted c) by (apply fqdn_eq, Sh'; right; right; right; left; reflexivity). rewrite Ef.
    destruct (named_do d7 e (target hostname s) (rooted c) QTYPE_CNAME K7 T) as (d8 & r8 & E8 & K8 & Kp8 & Sh8 & C8 & N8).
    { apply (way d7 (rooted c) (target hostname s) QTYPE_CNAME K7 (sound_rough l1 d7 Id S7)). right. split; [reflexivity|]. exists s. auto. }
    { intros x X E. destruct (S7 x X E) as (s' & _ & P). exact (part_cname s' _ P). }
    rewrite E8. cbn [bind]. exists d8. split; [reflexivity|]. split; [exact K8|]. split; [exact Kp8|]. split; [|split; [exact (N8 N7)|split]].
    - apply (sound_step l1 d7 d8 _ S7 C8). intros a _ P. exists s. split; [exact Isd|]. right. right. right. right. left. exists (rooted c). split; [exact Ia|exact P].
    - intros c' [<-|[]]. exact Sh8.
    - intros r X E [A B]. destruct (C8 r X E) as [(X7 & EX7 & R7 & _)|(_ & Q & _)]; [|rewrite Q in B; discriminate B]. apply (Fr7 r X7 EX7). rewrite <- R7. auto. }
  destruct C8 as (d8 & E8 & K8 & Kp8 & S8 & N8 & Sh8 & Fr8). rewrite E8. cbn [bind].
  (* the TXT *)
  destruct (txt_packet (s_txt s)) as (p & Ep & Hp); [intros t It; exact (wn_lines _ _ W s t Is It)|].
  destruct (own_do d8 e (instance hostname s) QTYPE_TXT 4500 (fun r => OSetRaw r p) (put_raw p) K8 T) as (d9 & r9 & d10 & E9 & E10 & K10 & Kp10 & Sh10 & C10 & N10).
  { apply keeps_raw. } { intros d' r L. split; [exact T|exact L]. } { reflexivity. } { exact Fr8. }
  rewrite E9. cbn [bind]. rewrite Ep. cbn [bind]. rewrite E10. cbn [bind]. exists d10. split; [reflexivity|].
  assert (Tx : is_txt (instance hostname s) (s_txt s) (put_raw p (new_answer (instance hostname s) QTYPE_TXT 4500))) by (repeat split; exists p; split; [reflexivity|exact Hp]).
  assert (Kp710 : kept d7 d10) by eauto using kept_trans.
  split; [exact K10|]. split; [|split; [|exact (N10 N8)]].
  - apply (sound_step l1 d8 d10 _ S8 C10). intros a _ ->. exists s. split; [exact Isd|]. right. right. right. left. exact Tx.
  - intros s' I. apply in_app_iff in I as [I|[<-|[]]]; [exact (has_kept d7 d10 s' Kp710 (H7 s' I))|]. destruct P7 as (A & B & C). destruct Of7 as [O4 O6]. repeat apply conj.
    + exact (shows_kept _ _ _ Kp710 A).
    + exact (shows_kept _ _ _ Kp710 B).
    + exact (shows_kept _ _ _ Kp710 C).
    + destruct Sh10 as (r & X & EX & ER). exists r, X. split; [exact EX|]. rewrite ER. exact Tx.
    + intros c Ic. exact (shows_kept _ _ _ Kp10 (Sh8 c Ic)).
    + intros ip O. exact (offers_kept _ _ _ _ _ Kp710 (O4 ip O)).
    + intros ip O. exact (offers_kept _ _ _ _ _ Kp710 (O6 ip O)).
Qed.

Lemma load_rest : forall e rest done d, l = done ++ rest -> 0 <= fst (e_now e) -> e_ifs e = Some ifs -> inv done d -> exists d', load_files d e ifname hostname rest = Ok d' /\ inv l d'.
Proof.
  intros e rest. induction rest as [|s rest IH]; intros done d El T Ei H; cbn [load_files].
  - exists d. split; [reflexivity|]. rewrite El, app_nil_r. exact H.
  - destruct (load_one e done s rest d El T Ei H) as (d1 & E1 & H1). rewrite E1. cbn [bind]. apply (IH (done ++ [s]) d1); [rewrite <- app_assoc; exact El|exact T|exact Ei|exact H1].
Qed.
Lemma inv_complete : forall d s, inv l d -> In s l -> complete d ifs ifname hostname s.
Proof.
  intros d s (K & So & Ha & _) I. destruct (Ha s I) as (A & B & C & D & E & F & G). unfold complete. repeat (split; [assumption|]). split; intros ip; (split; [|auto]).
  - intros (r & X & (EX & En & Et) & _ & Ad). destruct (So r X EX) as (s' & _ & P). destruct (part_addr s' _ P (or_introl Et)) as (_ & _ & [[_ O]|[Q _]]); [|rewrite Et in Q; discriminate Q]. unfold address in Ad. cbn in Ad. rewrite <- Ad. exact O.
  - intros (r & X & (EX & En & Et) & _ & Ad). destruct (So r X EX) as (s' & _ & P). destruct (part_addr s' _ P (or_intror Et)) as (_ & _ & [[Q _]|[_ O]]); [rewrite Et in Q; discriminate Q|]. unfold address in Ad. cbn in Ad. rewrite <- Ad. exact O.
Qed.
End Loading.

Lemma services : forall d e ifs ifname hostname l, reach d -> (forall r X, ~ record d r X) -> 0 <= fst (e_now e) -> e_ifs e = Some ifs -> well_named hostname l -> apart hostname l ->
  exists d', load_files d e ifname hostname l = Ok d' /\ reach d' /\ (forall s, In s l -> complete d' ifs ifname hostname s) /\
    (forall r X, record d' r X -> exists s, In s l /\ part_of ifs ifname hostname s (rr X)) /\ no_double d'.
Proof.
  intros d e ifs ifname hostname l K N T Ei W Ap. destruct (load_rest ifs ifname hostname l W Ap e l [] d eq_refl T Ei) as (d' & E & H).
  - split; [exact K|]. split; [intros r X EX; destruct (N r X EX)|]. split; [intros s []|]. intros r X r' X' EX. destruct (N r X EX).
  - exists d'. split; [exact E|]. pose proof H as (K' & So & _ & Nd). split; [exact K'|]. split; [|split; [exact So|exact Nd]]. intros s I. exact (inv_complete ifs ifname hostname l d' s H I).
Qed.

(* ------------------------------------------------------------------ *)
(* Deciding whether services go together *)
Definition mem (n : list Z) (l : list (list Z)) : bool := existsb (bytes_eqb n) l.
Lemma mem_in : forall n l, mem n l = false -> ~ In n l.
Proof. intros n l E I. assert (C : mem n l = true) by (apply existsb_exists; exists n; split; [exact I|apply bytes_eqb_refl]). congruence. Qed.
Fixpoint nodupb (l : list (list Z)) : bool := match l with [] => true | n :: l => negb (mem n l) && nodupb l end.
Lemma nodupb_ok : forall l, nodupb l = true -> NoDup l.
Proof. induction l as [|n l IH]; intros E; [constructor|]. cbn [nodupb] in E. apply andb_true_iff in E as [A B]. constructor; [apply mem_in; apply negb_true_iff; exact A|exact (IH B)]. Qed.
Definition well_namedb (hostname : list Z) (l : list conf_srec) : bool :=
  nodupb (map (instance hostname) l) &&
  forallb (fun s => forallb (fun n => zlen n <=? 255) (names_of hostname s) && forallb (fun t => (zlen t <=? 255) && negb (existsb (Z.eqb 0) t)) (s_txt s) &&
    forallb (fun n => negb (mem n (instance hostname s :: target hostname s :: aliases s))) (meta :: map service_type l) &&
    forallb (fun c => negb (mem c (map (instance hostname) l)) && negb (mem c (map (target hostname) l))) (aliases s)) l.
Lemma well_named_by : forall hostname l, well_namedb hostname l = true -> well_named hostname l.
Proof.
  intros hostname l E. unfold well_namedb in E. apply andb_true_iff in E as [E1 E2]. rewrite forallb_forall in E2. split.
  - apply nodupb_ok. exact E1.
  - intros s n Is In_. specialize (E2 s Is). rewrite !andb_true_iff, !forallb_forall in E2. destruct E2 as [[[A _] _] _]. specialize (A n In_). lia.
  - intros s t Is It. specialize (E2 s Is). rewrite !andb_true_iff, !forallb_forall in E2. destruct E2 as [[[_ A] _] _]. specialize (A t It). apply andb_true_iff in A as [A B]. split; [lia|]. intros I0.
    assert (C : existsb (Z.eqb 0) t = true) by (apply existsb_exists; exists 0; split; [exact I0|reflexivity]). rewrite C in B. discriminate B.
  - intros s n Is Tn. specialize (E2 s Is). rewrite !andb_true_iff in E2. destruct E2 as [[_ A] _]. rewrite forallb_forall in A.
    assert (I : In n (meta :: map service_type l)) by (destruct Tn as [->|(s' & I & ->)]; [left; reflexivity|right; apply in_map; exact I]). specialize (A n I). apply negb_true_iff, mem_in in A. cbn [In] in A.
    repeat split; intros Q; apply A; auto.
  - intros s s' c Is Is' Ic. specialize (E2 s Is). rewrite !andb_true_iff in E2. destruct E2 as [_ A]. rewrite forallb_forall in A. specialize (A c Ic). apply andb_true_iff in A as [A B]. apply negb_true_iff, mem_in in A. apply negb_true_iff, mem_in in B.
    split; intros ->; [apply A|apply B]; apply in_map; exact Is'.
Qed.
Definition apartb (hostname : list Z) (l : list conf_srec) : bool :=
  let ns := meta :: flat_map (names_of hostname) l in let ls := flat_map (links hostname) l in
  let lists n := mem n (meta :: map service_type l) in
  forallb (fun p => negb (existsb (fun q => bytes_eqb (fst q) (fst p) && negb (bytes_eqb (snd q) (snd p))) ls) ||
    forallb (fun m => negb (Nat.eqb (rbucket (fst p)) (rbucket m)) || bytes_eqb (fst p) m || (lists (fst p) && lists m)) ns) ls.
Lemma mem_listing : forall n l, mem n (meta :: map service_type l) = true -> listing l n.
Proof.
  intros n l E. apply existsb_exists in E as (m & I & B). apply bytes_eqb_eq in B as ->. destruct I as [<-|I]; [left; reflexivity|]. apply in_map_iff in I as (s & <- & I). right. eauto.
Qed.
Lemma apart_by : forall hostname l, apartb hostname l = true -> apart hostname l.
Proof.
  intros hostname l E n m (a & b & Ia & Ib & Nab) Im B. unfold apartb in E. cbv zeta in E. rewrite forallb_forall in E. specialize (E (n, a) Ia). cbn [fst snd] in E. apply orb_true_iff in E as [E|E].
  - exfalso. apply negb_true_iff in E. assert (C : existsb (fun q => bytes_eqb (fst q) n && negb (bytes_eqb (snd q) a)) (flat_map (links hostname) l) = true); [|congruence].
    apply existsb_exists. exists (n, b). split; [exact Ib|]. cbn [fst snd]. rewrite bytes_eqb_refl. destruct (bytes_eqb b a) eqn:Q; [apply bytes_eqb_eq in Q; congruence|reflexivity].
  - rewrite forallb_forall in E. specialize (E m Im). rewrite B, Nat.eqb_refl in E. cbn [negb orb] in E. apply orb_true_iff in E as [E|E]; [left; apply bytes_eqb_eq; exact E|]. right. apply andb_true_iff in E as [E1 E2]. split; apply mem_listing; assumption.
Qed.
(* Looking for a PTR among the records *)
Definition has_ptr (d : daemon) (n to : list Z) : bool :=
  existsb (fun r => match hp (R d) r with Some X => bytes_eqb (a_name (rr X)) n && (a_type (rr X) =? QTYPE_PTR) && (match a_rdname (rr X) with Some t => bytes_eqb t to | None => false end) | None => false end) (concat (pub (R d))).
Lemma no_ptr : forall d n to, reach d -> has_ptr d n to = false -> ~ shows d (is_ptr n to).
Proof.
  intros d n to K E (r & X & EX & A & B & C & _). destruct (reach_dinv d K) as (qs & H & _). assert (I : In r (concat (pub (R d)))) by (apply (pk_live _ (ri_p _ _ H)); unfold record in EX; congruence).
  assert (Q : has_ptr d n to = true).
  { apply existsb_exists. exists r. split; [exact I|]. unfold record in EX. rewrite EX, A, B, C, !bytes_eqb_refl, Z.eqb_refl. reflexivity. }
  congruence.
Qed.

(* One service alone *)
Lemma apart_alone : forall hostname s, well_named hostname [s] -> service_type s <> meta -> apart hostname [s].
Proof.
  intros hostname s W Nt n m (a & b & Ia & Ib & Nab) _ _. exfalso. apply Nab. cbn [flat_map] in Ia, Ib. rewrite app_nil_r in Ia, Ib. unfold links in Ia, Ib.
  assert (Is : In s [s]) by (left; reflexivity).
  assert (Na : ~ In meta (aliases s)) by (apply (wn_types _ _ W s meta Is); left; reflexivity).
  assert (Nt' : ~ In (service_type s) (aliases s)) by (apply (wn_types _ _ W s (service_type s) Is); right; exists s; auto).
  assert (Al : forall c to, In (c, to) (map (fun c => (c, target hostname s)) (aliases s)) -> In c (aliases s) /\ to = target hostname s) by (intros c to I; apply in_map_iff in I as (c' & Q & I); injection Q as <- <-; auto).
  destruct Ia as [Ia|[Ia|Ia]]; destruct Ib as [Ib|[Ib|Ib]]; try (injection Ia as E1 E2); try (injection Ib as E3 E4); try apply Al in Ia as [Ia ->]; try apply Al in Ib as [Ib ->]; try congruence; exfalso; try (rewrite <- E1 in *; contradiction); try (rewrite <- E3 in *; contradiction).
Qed.
Lemma service_alone : forall d e ifs ifname hostname s, reach d -> (forall r X, ~ record d r X) -> 0 <= fst (e_now e) -> e_ifs e = Some ifs ->
  well_named hostname [s] -> service_type s <> meta ->
  exists d', load d e ifname hostname s = Ok d' /\ reach d' /\ complete d' ifs ifname hostname s /\ (forall r X, record d' r X -> part_of ifs ifname hostname s (rr X)) /\ no_double d'.
Proof.
  intros d e ifs ifname hostname s K N T Ei W Nt. destruct (services d e ifs ifname hostname [s] K N T Ei W (apart_alone hostname s W Nt)) as (d' & E & K' & A & B & C).
  exists d'. cbn [load_files] in E. split; [destruct (load d e ifname hostname s); exact E|]. split; [exact K'|]. split; [apply A; left; reflexivity|]. split; [|exact C].
  intros r X EX. destruct (B r X EX) as (s' & [<-|[]] & P). exact P.
Qed.
