(* Proofs about loading .service files. *)
From Verif Require Import Base SpecDns SpecMap SpecTxt Lemmas Hash Xht SdTxt XhtProofs SdTxtProofs Wire Rec Qry Out In Api RecInv RecSafe RecOps RecAddr DaemonInv SpecDaemon SpecAddr FactsCalls FactsAddr Lib Conf Load SpecConf SpecLoad.

(* ------------------------------------------------------------------ *)
(* Records before and after a call *)
Definition kept (d d' : daemon) : Prop := forall x X, record d x X -> exists Y, record d' x Y /\ rr Y = rr X /\ unique Y = unique X.
Definition added (d d' : daemon) (r : nat) : Prop := forall x Y, record d' x Y -> x <> r -> exists X, record d x X /\ rr Y = rr X /\ unique Y = unique X.

Lemma kept_refl : forall d, kept d d.
Proof. intros d x X E. eauto. Qed.
Lemma added_refl : forall d r, added d d r.
Proof. intros d r x X E _. eauto. Qed.
Lemma nolink_two : forall X Y, nolink Y = nolink X -> rr Y = rr X /\ unique Y = unique X.
Proof. intros X Y N. apply nolink_fields in N as (A & B & _). auto. Qed.

Lemma reach_do : forall d e o, reach d -> legal d e o -> exists d' x, step d e o = Ok (d', x) /\ reach d'.
Proof. intros d e o K L. destruct (reach_ok d e o K L) as (d' & x & E). exists d', x. split; [exact E|]. exact (reach_step d e o d' x K L E). Qed.

Lemma shared_do : forall d e name ty ttl, reach d -> 0 <= fst (e_now e) ->
  exists d' r Y, step d e (OShared name ty ttl) = Ok (d', RRec r) /\ reach d' /\ kept d d' /\ added d d' r /\ record d' r Y /\ rr Y = new_answer name ty ttl /\ unique Y = 0 /\ (forall X, ~ record d r X).
Proof.
  intros d e name ty ttl K T. assert (L : legal d e (OShared name ty ttl)) by (split; [exact T|exact I]). destruct (reach_do d e _ K L) as (d' & x & E & K'). destruct (reach_dinv d K) as (qs & H & _).
  pose proof E as E0. cbn [step] in E0. unfold on_new in E0. cbn [bind] in E0. destruct (mdnsd_shared (R d) name ty ttl) as [s r] eqn:Es. injection E0 as <- <-.
  destruct (mdnsd_shared_inv (R d) qs name ty ttl s r H Es) as (_ & Er & _ & G & O & _). exists (with_R d s), r, (new_rec name ty ttl). split; [exact E|]. split; [exact K'|].
  assert (F : hp (R d) r = None) by (rewrite Er; exact (fresh_free _ _ (ri_q _ _ H))).
  split; [|split; [|split; [|split; [|split]]]].
  - intros y Y EY. exists Y. split; [|auto]. unfold record in *. cbn [R with_R]. rewrite O; [exact EY|]. intros ->. congruence.
  - intros y Y EY Ny. unfold record in EY. cbn [R with_R] in EY. rewrite O in EY by exact Ny. exists Y. auto.
  - exact G.
  - reflexivity.
  - reflexivity.
  - intros X EX. unfold record in EX. congruence.
Qed.
Lemma unique_do : forall d e name ty ttl, reach d -> 0 <= fst (e_now e) ->
  exists d' r Y, step d e (OUnique name ty ttl (Some 0%nat)) = Ok (d', RRec r) /\ reach d' /\ kept d d' /\ added d d' r /\ record d' r Y /\ rr Y = new_answer name ty ttl /\ unique Y = 1 /\ (forall X, ~ record d r X).
Proof.
  intros d e name ty ttl K T. assert (Nn : Some 0%nat <> None) by discriminate. assert (L : legal d e (OUnique name ty ttl (Some 0%nat))) by (split; [exact T|exact Nn]).
  destruct (reach_do d e _ K L) as (d' & x & E & K'). destruct (reach_dinv d K) as (qs & H & _).
  destruct (mdnsd_unique_inv (R d) qs (now d) name ty ttl (Some 0%nat) H Nn) as (s & Es & _ & _ & (Y & EY & NY) & O & _).
  pose proof E as E0. cbn [step] in E0. unfold on_new in E0. rewrite Es in E0. cbn [bind] in E0. injection E0 as <- <-.
  pose proof (fresh_free _ _ (ri_q _ _ H)) as F.
  exists (with_R d s), (fresh (R d)), Y. split; [exact E|]. split; [exact K'|].
  assert (NF : rr Y = new_answer name ty ttl /\ unique Y = 1).
  { destruct Y as [y1 y2 y3 y4 y5 y6 y7]. unfold nolink, set_link in NY. cbn [rr unique modified tries conflict last_sent] in NY. injection NY as -> -> _ _ _ _. auto. }
  split; [|split; [|split; [|split; [|split]]]].
  - intros y Z EZ. destruct (nolink_eq' _ _ (O y ltac:(intros ->; unfold record in EZ; congruence)) Z EZ) as (W & EW & NW). exists W. split; [exact EW|]. symmetry in NW. apply nolink_two. exact NW.
  - intros y Z EZ Ny. destruct (nolink_eq _ _ (O y Ny) Z EZ) as (W & EW & NW). exists W. split; [exact EW|]. symmetry in NW. apply nolink_two. exact NW.
  - exact EY.
  - apply NF.
  - apply NF.
  - intros X EX. unfold record in EX. congruence.
Qed.
Lemma set_do : forall d e o f r X, reach d -> legal d e o -> keeps_id f -> step d e o = on_recs d (mdnsd_set (R d) (now d) r f) -> record d r X ->
  exists d' Y, step d e o = Ok (d', RUnit) /\ reach d' /\ record d' r Y /\ rr Y = f (rr X) /\ unique Y = unique X /\ added d d' r /\
    (forall x Z, record d x Z -> x <> r -> exists W, record d' x W /\ rr W = rr Z /\ unique W = unique Z).
Proof.
  intros d e o f r X K L Kf Eo EX. destruct (reach_do d e o K L) as (d' & x & E & K'). destruct (reach_dinv d K) as (qs & H & _).
  destruct (mdnsd_set_inv (R d) qs (now d) r f X H Kf EX) as (s & qs' & Y & Es & _ & B & EY & RY & UY & _).
  pose proof E as E0. rewrite Eo in E0. unfold on_recs in E0. rewrite Es in E0. cbn [bind] in E0. injection E0 as <- <-.
  exists (with_R d s), Y. split; [exact E|]. split; [exact K'|]. split; [exact EY|]. split; [exact RY|]. split; [exact UY|]. split.
  - intros y Z EZ Ny. destruct (nolink_eq' _ _ (B y Ny) Z EZ) as (W & EW & NW). exists W. split; [exact EW|]. apply nolink_two. exact NW.
  - intros y Z EZ Ny. destruct (nolink_eq _ _ (B y Ny) Z EZ) as (W & EW & NW). exists W. split; [exact EW|]. apply nolink_two. exact NW.
Qed.

(* ------------------------------------------------------------------ *)
(* record() *)
Lemma walk_ok : forall h l host, all_live h l -> exists o, walk h l host = Ok o /\
  match o with
  | Some x => In x l /\ exists X, h x = Some X /\ (a_rdname (rr X) = None \/ a_rdname (rr X) = Some host)
  | None => forall x X, In x l -> h x = Some X -> exists n, a_rdname (rr X) = Some n /\ n <> host
  end.
Proof.
  intros h l host. induction l as [|x l IH]; intros L; cbn [walk].
  - exists None. split; [reflexivity|]. intros x X [].
  - apply all_live_cons in L as [[X E] L]. rewrite (hget_some _ _ _ E). cbn [bind]. destruct (a_rdname (rr X)) as [n|] eqn:En.
    + destruct (bytes_eqb n host) eqn:B.
      * apply bytes_eqb_eq in B. subst n. exists (Some x). split; [reflexivity|]. split; [left; reflexivity|]. exists X. auto.
      * destruct (IH L) as (o & Eo & S). exists o. split; [exact Eo|]. destruct o as [y|].
        -- destruct S as (I & S). split; [right; exact I|exact S].
        -- intros y Y [<-|I] EY; [|exact (S y Y I EY)]. rewrite E in EY. injection EY as <-. exists n. split; [exact En|]. intros ->. rewrite bytes_eqb_refl in B. discriminate B.
    + exists (Some x). split; [reflexivity|]. split; [left; reflexivity|]. exists X. auto.
Qed.
Lemma tail_sub : forall l x y, In y (tail_after x l) -> In y l.
Proof. induction l as [|z l IH]; intros x y I; [exact I|]. cbn [tail_after] in I. destruct (Nat.eqb z x); [right; exact I|right; exact (IH x y I)]. Qed.
Lemma all_live_sub : forall h l l', all_live h l -> (forall y, In y l' -> In y l) -> all_live h l'.
Proof. intros h l l' L S y I. apply L, S, I. Qed.
Lemma record_safe : forall d e shared host name ty ttl, reach d -> 0 <= fst (e_now e) -> exists d' r, conf_record d e shared host name ty ttl = Ok (d', r) /\ reach d' /\ live d' r.
Proof.
  intros d e shared host name ty ttl K T. unfold conf_record. destruct (reach_dinv d K) as (qs & H & _).
  destruct (mdnsd_find_ok (R d) name ty (ri_p _ _ H)) as (o & Eo & S). rewrite Eo. cbn [bind].
  assert (W : exists o', match o with Some x => match host with Some h => walk (hp (R d)) (x :: tail_after x (mdnsd_get_published (R d) name)) h | None => Ok o end | None => Ok o end = Ok o' /\ forall x, o' = Some x -> live d x).
  { destruct o as [x|]; [|exists None; split; [reflexivity|discriminate]]. destruct S as (X & EX & Et & En). destruct host as [h|].
    - assert (L : all_live (hp (R d)) (x :: tail_after x (mdnsd_get_published (R d) name))).
      { apply (all_live_sub _ (mdnsd_get_published (R d) name)); [apply chain_of_live; apply (ri_p _ _ H)|]. intros y [<-|I]; [|exact (tail_sub _ _ _ I)]. unfold mdnsd_get_published. rewrite <- En. apply pok_in; [apply (ri_p _ _ H)|exact EX]. }
      destruct (walk_ok (hp (R d)) _ h L) as (o' & Ew & Sw). exists o'. split; [exact Ew|]. intros y ->. destruct Sw as (_ & Y & EY & _). unfold live. congruence.
    - exists (Some x). split; [reflexivity|]. intros y E. injection E as <-. unfold live. congruence. }
  destruct W as (o' & Ew & Lw). replace (match o with Some x => match host with Some h => walk (hp (R d)) (x :: tail_after x (mdnsd_get_published (R d) name)) h | None => Ok o end | None => Ok o end) with (Ok o') in *.
  match goal with |- exists d' r, bind ?A _ = _ /\ _ => replace A with (Ok o') by (rewrite <- Ew; destruct o, host; reflexivity) end. cbn [bind].
  destruct o' as [x|]; [exists d, x; split; [reflexivity|]; split; [exact K|exact (Lw x eq_refl)]|].
  assert (N : exists d1 r Y, step d e (if shared then OShared name ty ttl else OUnique name ty ttl (Some 0%nat)) = Ok (d1, RRec r) /\ reach d1 /\ record d1 r Y).
  { destruct shared; [destruct (shared_do d e name ty ttl K T) as (d1 & r & Y & E1 & K1 & _ & _ & R1 & _)|destruct (unique_do d e name ty ttl K T) as (d1 & r & Y & E1 & K1 & _ & _ & R1 & _)]; exists d1, r, Y; auto. }
  destruct N as (d1 & r & Y & E1 & K1 & R1). rewrite E1. cbn [bind]. assert (Lr : live d1 r) by (unfold live, record in *; congruence). destruct host as [h|].
  - destruct (set_do d1 e (OSetHost r h) (put_host h) r Y K1) as (d2 & Z & E2 & K2 & R2 & _); [split; [exact T|exact Lr]|apply keeps_host|reflexivity|exact R1|].
    rewrite E2. cbn [bind]. exists d2, r. split; [reflexivity|]. split; [exact K2|]. unfold live, record in *. congruence.
  - exists d1, r. auto.
Qed.

(* The first record of a name and type is before all others of them *)
Lemma find_first : forall h l name ty x, find_exact h l name ty = Ok (Some x) -> forall y Y, In y l -> h y = Some Y -> a_name (rr Y) = name -> a_type (rr Y) = ty -> y = x \/ In y (tail_after x l).
Proof.
  intros h l name ty x. induction l as [|z l IH]; intros E y Y I EY N T; [destruct I|]. cbn [find_exact] in E. unfold hget in E. destruct (h z) as [V|] eqn:EV; [|discriminate E]. cbn [bind] in E. cbn [tail_after].
  destruct ((a_type (rr V) =? ty) && bytes_eqb (a_name (rr V)) name) eqn:B.
  - injection E as <-. rewrite Nat.eqb_refl. destruct I as [->|I]; auto.
  - destruct I as [->|I].
    + rewrite EV in EY. injection EY as ->. rewrite N, T, Z.eqb_refl, bytes_eqb_refl in B. discriminate B.
    + destruct (IH E y Y I EY N T) as [->|J]; [auto|]. destruct (Nat.eqb z x); auto.
Qed.
(* Nothing stands in the way of looking for a record that points to the host: the
   records of the bucket all point somewhere, and to the host only those of the
   name and type; or the name has no other record of the type. *)
Definition clear_way (d : daemon) (host name : list Z) (ty : Z) : Prop :=
  (forall x X, In x (mdnsd_get_published (R d) name) -> record d x X -> a_rdname (rr X) <> None /\ (a_rdname (rr X) = Some host -> a_name (rr X) = name /\ a_type (rr X) = ty)) \/
  (forall x X, record d x X -> a_name (rr X) = name -> a_type (rr X) = ty -> a_rdname (rr X) = Some host).
Lemma record_named : forall d e host name ty ttl, reach d -> 0 <= fst (e_now e) -> clear_way d host name ty ->
  exists d' r Y, conf_record d e true (Some host) name ty ttl = Ok (d', r) /\ reach d' /\ kept d d' /\ added d d' r /\ record d' r Y /\
    a_name (rr Y) = name /\ a_type (rr Y) = ty /\ a_rdname (rr Y) = Some host /\
    ((exists X, record d r X /\ rr Y = rr X) \/
     ((forall X, ~ record d r X) /\ a_ttl (rr Y) = ttl /\ forall x X, record d x X -> ~ (a_name (rr X) = name /\ a_type (rr X) = ty /\ a_rdname (rr X) = Some host))).
Proof.
  intros d e host name ty ttl K T F. unfold conf_record. destruct (reach_dinv d K) as (qs & H & _).
  destruct (mdnsd_find_ok (R d) name ty (ri_p _ _ H)) as (o & Eo & S). rewrite Eo. cbn [bind].
  assert (W : exists o', match o with None => Ok None | Some x => walk (hp (R d)) (x :: tail_after x (mdnsd_get_published (R d) name)) host end = Ok o' /\
    match o' with
    | Some x => exists X, record d x X /\ a_name (rr X) = name /\ a_type (rr X) = ty /\ a_rdname (rr X) = Some host
    | None => forall x X, record d x X -> ~ (a_name (rr X) = name /\ a_type (rr X) = ty /\ a_rdname (rr X) = Some host)
    end).
  { assert (Hin : forall x X, record d x X -> a_name (rr X) = name -> In x (mdnsd_get_published (R d) name)) by (intros x X EX <-; apply pok_in; [apply (ri_p _ _ H)|exact EX]).
    destruct o as [x|].
    2:{ exists None. split; [reflexivity|]. intros x X EX (A & B & _). exact (S x X EX B A). }
    destruct S as (X & EX & Et & En).
    assert (Sub : forall y, In y (x :: tail_after x (mdnsd_get_published (R d) name)) -> In y (mdnsd_get_published (R d) name)) by (intros y [<-|J]; [exact (Hin x X EX En)|exact (tail_sub _ _ _ J)]).
    destruct F as [F|F].
    - destruct (walk_ok (hp (R d)) _ host (all_live_sub _ _ _ (chain_of_live (R d) name (ri_p _ _ H)) Sub)) as (o' & Ew & Sw). exists o'. split; [exact Ew|]. destruct o' as [y|].
      + destruct Sw as (I & Y & EY & D). destruct (F y Y (Sub y I) EY) as (A & B). destruct D as [D|D]; [contradiction|]. destruct (B D) as [B1 B2]. exists Y. auto.
      + intros y Y EY (A & B & C). destruct (Sw y Y) as (n & Q1 & Q2); [|exact EY|congruence].
        destruct (find_first _ _ _ _ _ Eo y Y (Hin y Y EY A) EY A B) as [->|J]; [left; reflexivity|right; exact J].
    - exists (Some x). pose proof (F x X EX En Et) as D. split; [|exists X; auto]. cbn [walk]. rewrite (hget_some _ _ _ EX). cbn [bind]. rewrite D, bytes_eqb_refl. reflexivity. }
  destruct W as (o' & Ew & Sw).
  match goal with |- exists d' r Y, bind ?A _ = _ /\ _ => replace A with (Ok o') by (rewrite <- Ew; destruct o; reflexivity) end.
  cbn [bind]. destruct o' as [x|].
  - destruct Sw as (X & EX & A & B & C). exists d, x, X. split; [reflexivity|]. split; [exact K|]. split; [apply kept_refl|]. split; [apply added_refl|]. split; [exact EX|]. split; [exact A|]. split; [exact B|]. split; [exact C|].
    left. exists X. auto.
  - destruct (shared_do d e name ty ttl K T) as (d1 & r & Y & E1 & K1 & Kp & Ad & R1 & RY & UY & Fr). rewrite E1. cbn [bind].
    assert (Lr : live d1 r) by (unfold live, record in *; congruence).
    destruct (set_do d1 e (OSetHost r host) (put_host host) r Y K1) as (d2 & Z & E2 & K2 & R2 & RZ & UZ & Ad2 & Kp2); [split; [exact T|exact Lr]|apply keeps_host|reflexivity|exact R1|].
    rewrite E2. cbn [bind]. exists d2, r, Z. split; [reflexivity|]. split; [exact K2|].
    split.
    { intros y V EV. destruct (Kp y V EV) as (V1 & EV1 & P1 & P2). destruct (Kp2 y V1 EV1) as (V2 & EV2 & P3 & P4); [intros ->; exact (Fr V EV)|]. exists V2. split; [exact EV2|]. split; congruence. }
    split.
    { intros y V EV Ny. destruct (Ad2 y V EV Ny) as (V1 & EV1 & P1 & P2). destruct (Ad y V1 EV1 Ny) as (V2 & EV2 & P3 & P4). exists V2. split; [exact EV2|]. split; congruence. }
    split; [exact R2|]. rewrite RZ, RY. cbn [put_host new_answer a_name a_type a_rdname a_ttl]. repeat (split; [reflexivity|]). right. split; [exact Fr|]. split; [reflexivity|exact Sw].
Qed.

Lemma record_own : forall d e name ty ttl, reach d -> 0 <= fst (e_now e) ->
  exists d' r Y, conf_record d e false None name ty ttl = Ok (d', r) /\ reach d' /\ kept d d' /\ added d d' r /\ record d' r Y /\
    a_name (rr Y) = name /\ a_type (rr Y) = ty /\
    ((exists X, record d r X /\ rr Y = rr X /\ unique Y = unique X) \/
     ((forall X, ~ record d r X) /\ rr Y = new_answer name ty ttl /\ unique Y = 1 /\ forall x X, record d x X -> ~ (a_name (rr X) = name /\ a_type (rr X) = ty))).
Proof.
  intros d e name ty ttl K T. unfold conf_record. destruct (reach_dinv d K) as (qs & H & _).
  destruct (mdnsd_find_ok (R d) name ty (ri_p _ _ H)) as (o & Eo & S). rewrite Eo. cbn [bind].
  match goal with |- exists d' r Y, bind ?A _ = _ /\ _ => replace A with (Ok o : res (option nat)) by (destruct o; reflexivity) end. cbn [bind].
  destruct o as [x|].
  - destruct S as (X & EX & A & B). exists d, x, X. split; [reflexivity|]. split; [exact K|]. split; [apply kept_refl|]. split; [apply added_refl|]. split; [exact EX|]. split; [exact B|]. split; [exact A|]. left. exists X. auto.
  - destruct (unique_do d e name ty ttl K T) as (d1 & r & Y & E1 & K1 & Kp & Ad & R1 & RY & UY & Fr). rewrite E1. cbn [bind]. exists d1, r, Y. split; [reflexivity|]. split; [exact K1|]. split; [exact Kp|]. split; [exact Ad|]. split; [exact R1|].
    rewrite RY. cbn [new_answer a_name a_type]. split; [reflexivity|]. split; [reflexivity|]. right. split; [exact Fr|]. split; [reflexivity|]. split; [exact UY|]. intros y V EV [A B]. exact (S y V EV B A).
Qed.

(* ------------------------------------------------------------------ *)
(* Loading never touches what it must not: C73_safe *)
Lemma txt_table_run : forall l h0 ops, h0 = xht_run 11 ops -> exists ops', txt_table l h0 = xht_run 11 ops' /\
  ops' = ops ++ flat_map (fun t => if existsb (Z.eqb 61) t then [XSet (fst (split_eq t)) (Some (snd (split_eq t)))] else []) l.
Proof.
  induction l as [|t l IH]; intros h0 ops ->; cbn [txt_table flat_map].
  - exists ops. rewrite app_nil_r. auto.
  - destruct (existsb (Z.eqb 61) t); [|exact (IH _ ops eq_refl)]. destruct (split_eq t) as [k v] eqn:Es. cbn [fst snd].
    destruct (IH (xht_set (xht_run 11 ops) k (Some v)) (ops ++ [XSet k (Some v)])) as (ops' & E & P).
    + unfold xht_run. rewrite fold_left_app. reflexivity.
    + exists ops'. split; [exact E|]. rewrite P, <- app_assoc. reflexivity.
Qed.
Lemma packet_ok : forall l, exists p, sd2txt (txt_table l (xht_new 11)) = Ok p.
Proof. intros l. destruct (txt_table_run l (xht_new 11) [] eq_refl) as (ops & E & _). rewrite E. destruct (run_encode 11 ops ltac:(lia)) as (p & pairs & Ep & _). eauto. Qed.

Lemma load_safe : forall d e ifname hostname s, reach d -> 0 <= fst (e_now e) -> exists d', load d e ifname hostname s = Ok d' /\ reach d'.
Proof.
  intros d e ifname hostname s K T. unfold load.
  destruct (record_safe d e true (Some (tlocal s)) DISCO_NAME QTYPE_PTR 120 K T) as (d1 & r1 & E1 & K1 & _). rewrite E1. cbn [bind].
  destruct (record_safe d1 e true (Some (hlocal s hostname)) (tlocal s) QTYPE_PTR 120 K1 T) as (d2 & r2 & E2 & K2 & _). rewrite E2. cbn [bind].
  destruct (record_safe d2 e false None (hlocal s hostname) QTYPE_SRV 120 K2 T) as (d3 & r3 & E3 & K3 & L3). rewrite E3. cbn [bind].
  destruct (reach_do d3 e (OSetSrv r3 0 0 (s_port s mod 65536) (tgtlocal s hostname)) K3) as (d4 & x4 & E4 & K4); [split; [exact T|exact L3]|]. rewrite E4. cbn [bind].
  destruct (record_safe d4 e false None (tgtlocal s hostname) QTYPE_A 120 K4 T) as (d5 & r5 & E5 & K5 & _). rewrite E5. cbn [bind].
  destruct (record_safe d5 e false None (tgtlocal s hostname) QTYPE_AAAA 120 K5 T) as (d6 & r6 & E6 & K6 & _). rewrite E6. cbn [bind].
  destruct (reach_do d6 e (OSetIfaddrs ifname) K6) as (d7 & x7 & E7 & K7); [split; [exact T|exact I]|]. rewrite E7. cbn [bind].
  assert (C : exists d8, match s_cname s with Some c => '(d, _) <- conf_record d7 e true (Some (tgtlocal s hostname)) (fqdn c) QTYPE_CNAME 120;; Ok d | None => Ok d7 end = Ok d8 /\ reach d8).
  { destruct (s_cname s) as [c|]; [|eauto]. destruct (record_safe d7 e true (Some (tgtlocal s hostname)) (fqdn c) QTYPE_CNAME 120 K7 T) as (d8 & r8 & E8 & K8 & _). rewrite E8. cbn [bind]. eauto. }
  destruct C as (d8 & E8 & K8). rewrite E8. cbn [bind].
  destruct (record_safe d8 e false None (hlocal s hostname) QTYPE_TXT 4500 K8 T) as (d9 & r9 & E9 & K9 & L9). rewrite E9. cbn [bind].
  destruct (packet_ok (s_txt s)) as (p & Ep). rewrite Ep. cbn [bind].
  destruct (reach_do d9 e (OSetRaw r9 p) K9) as (d10 & x10 & E10 & K10); [split; [exact T|exact L9]|]. rewrite E10. cbn [bind]. eauto.
Qed.
Lemma load_files_safe : forall l d e ifname hostname, reach d -> 0 <= fst (e_now e) -> exists d', load_files d e ifname hostname l = Ok d' /\ reach d'.
Proof.
  induction l as [|s l IH]; intros d e ifname hostname K T; cbn [load_files]; [eauto|].
  destruct (load_safe d e ifname hostname s K T) as (d1 & E1 & K1). rewrite E1. cbn [bind]. exact (IH d1 e ifname hostname K1 T).
Qed.
