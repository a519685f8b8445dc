(* Caching a received record. *)
From Verif Require Import Base Lemmas Hash HashProofs XhtProofs Wire Rec Qry Out In Api RecInv RecSafe RecOps OutSafe QryInv QryOps.

(* ------------------------------------------------------------------ *)
(* Marking entries dead and expiring them *)

Definition kill (p : cached -> bool) (l : list cached) : list cached := map (fun c => if p c then set_cttl c 0 else c) l.
Definition survives (now : Z) (p : cached -> bool) (c : cached) : bool := alive now c && negb (p c).

(* What is told of a removed entry *)
Definition farewell (s : qrys) (c : cached) : list (nat * answer) :=
  match c_q c with
  | Some q => match qh s q with Some x => [(q_cb x, set_ttl (c_rr c) 0)] | None => [] end
  | None => []
  end.

Lemma set_ttl_same : forall a, set_ttl a (a_ttl a) = a.
Proof. intros []. reflexivity. Qed.
Lemma set_ttl_twice : forall a x y, set_ttl (set_ttl a x) y = set_ttl a y.
Proof. intros []. reflexivity. Qed.

Lemma filter_kill : forall now p l, 0 <= now -> filter (alive now) (kill p l) = filter (survives now p) l.
Proof.
  intros now p l N. unfold kill. induction l as [|c l IH]; [reflexivity|]. cbn [map filter]. unfold survives at 1. destruct (p c) eqn:P.
  - unfold alive at 1. cbn [set_cttl c_rr set_ttl a_ttl]. replace (now <? 0) with false by lia. rewrite IH. rewrite andb_false_r. reflexivity.
  - rewrite IH, andb_true_r. reflexivity.
Qed.

Lemma expiry_kill : forall s s' now p l, 0 <= now -> qh s' = qh s -> flat_map (expiry s' now) (kill p l) = flat_map (farewell s) (filter (fun c => negb (survives now p c)) l).
Proof.
  intros s s' now p l N E. unfold kill. induction l as [|c l IH]; [reflexivity|]. cbn [map flat_map filter]. rewrite IH. unfold survives at 2, expiry, alive. rewrite E.
  destruct (p c).
  - cbn [set_cttl c_rr c_q]. replace (a_ttl (set_ttl (c_rr c) 0) <=? now) with true by (cbn [a_ttl set_ttl]; lia).
    rewrite andb_false_r. cbn [negb flat_map]. unfold farewell at 2. rewrite set_ttl_twice. reflexivity.
  - rewrite andb_true_r. destruct (a_ttl (c_rr c) <=? now) eqn:L.
    + replace (now <? a_ttl (c_rr c)) with false by lia. cbn [negb flat_map]. reflexivity.
    + replace (now <? a_ttl (c_rr c)) with true by lia. reflexivity.
Qed.

Lemma kill_ckeep : forall p l, Forall2 ckeep l (kill p l).
Proof. intros p l. apply Forall2_map_r. intros c _. destruct (p c); [apply set_cttl_keep|apply crel_keep, crel_refl]. Qed.

Lemma expire_kill : forall s now cb i p, qinv s -> (i < Z.to_nat LPRIME)%nat -> 0 <= now ->
  exists s' T, c_expire (set_centries s i (kill p (centries s i))) now cb i = Ok s' /\ qinv s' /\ shrinks cb s s' T /\
    Forall2 crel (filter (survives now p) (centries s i)) (centries s' i) /\ (forall j, j <> i -> Forall2 crel (centries s j) (centries s' j)) /\
    ((forall k, cb k = false) -> qh s' = qh s /\ qlist s' = qlist s /\ qtab s' = qtab s /\ centries s' i = filter (survives now p) (centries s i) /\
       (forall j, j <> i -> centries s' j = centries s j) /\ T = flat_map (farewell s) (filter (fun c => negb (survives now p c)) (centries s i))).
Proof.
  intros s now cb i p H Li N. set (s1 := set_centries s i (kill p (centries s i))).
  assert (H1 : qinv s1) by (eapply set_centries_inv; [exact H|apply sub_refl|apply kill_ckeep]).
  assert (E1 : centries s1 i = kill p (centries s i)) by (apply centries_set_same; rewrite (qi_clen _ H); exact Li).
  assert (O1 : forall j, j <> i -> centries s1 j = centries s j) by (intros j D; apply centries_set_other; exact D).
  destruct (c_expire_spec s1 now cb i H1 Li) as (s' & T & E' & H' & S' & R' & O' & Z').
  exists s', T. split; [exact E'|]. split; [exact H'|]. split; [destruct S'; split; assumption|].
  rewrite E1, filter_kill in * by exact N. split; [exact R'|]. split.
  - intros j D. rewrite <- (O1 j D). apply O'. exact D.
  - intros Cb. destruct (Z' Cb) as (Z1 & Z2 & Z3 & Z4 & Z5 & Z6). repeat split; try assumption.
    + intros j D. rewrite (Z5 j D). apply O1. exact D.
    + rewrite Z6. apply expiry_kill; [exact N|reflexivity].
Qed.

(* ------------------------------------------------------------------ *)
(* The data of a received record *)

Definition rdata_of (r : resource) : list Z * option (list Z) * (Z * Z * Z) :=
  if rr_type r =? QTYPE_SRV then ([], known_name r, known_srv r)
  else if is_name_type (rr_type r) then ([], known_name r, (0, 0, 0))
  else if rr_type r =? QTYPE_A then (known_ip r, None, (0, 0, 0))
  else if rr_type r =? QTYPE_AAAA then (known_ip6 r, None, (0, 0, 0))
  else (opt_bytes (rr_rdata r), None, (0, 0, 0)).
Definition rkey (r : resource) := (rr_name r, rr_type r, rdata_of r).

Lemma opt_eqb_some : forall n o, opt_eqb (Some n) o = true <-> o = Some n.
Proof. intros n [m|]; cbn [opt_eqb]; [rewrite bytes_eqb_eq|]; split; congruence. Qed.

Lemma a_match_key : forall r a, wf_resource r -> (a_match r a = true <-> akey a = rkey r).
Proof.
  intros r a (_ & W0 & W1 & W2 & W3 & W4). unfold a_match, akey, rkey.
  destruct (bytes_eqb (rr_name r) (a_name a)) eqn:En; cbn [negb orb].
  2:{ split; [discriminate|]. intros K. exfalso. assert (Ne : rr_name r = a_name a) by congruence. apply bytes_eqb_eq in Ne. congruence. }
  apply bytes_eqb_eq in En. destruct (rr_type r =? a_type a) eqn:Et; cbn [negb].
  2:{ split; [discriminate|]. intros K. exfalso. assert (Ne : rr_type r = a_type a) by congruence. lia. }
  apply Z.eqb_eq in Et. rewrite <- En, <- Et.
  transitivity (adata a = rdata_of r); [|split; [intros ->; reflexivity|congruence]].
  unfold adata, rdata_of. rewrite <- Et. destruct (rr_type r =? QTYPE_SRV) eqn:C1.
  - destruct (W1 ltac:(lia)) as (p & w & q & n & E). unfold known_srv, known_name. rewrite E.
    rewrite !andb_true_iff, opt_eqb_some, !Z.eqb_eq. split; [intros [[[-> ->] ->] ->]; reflexivity|]. intros K. injection K as K1 K2 K3 K4. auto.
  - destruct (is_name_type (rr_type r)) eqn:C2.
    + destruct (W2 eq_refl) as (n & E). unfold known_name. rewrite E, opt_eqb_some. split; [intros ->; reflexivity|congruence].
    + destruct (rr_type r =? QTYPE_A) eqn:C3; [rewrite bytes_eqb_eq; split; [intros ->; reflexivity|congruence]|].
      destruct (rr_type r =? QTYPE_AAAA) eqn:C4; [rewrite bytes_eqb_eq; split; [intros ->; reflexivity|congruence]|].
      rewrite andb_true_iff, Z.eqb_eq, bytes_eqb_eq. split; [intros [_ ->]; reflexivity|]. intros K. assert (K' : opt_bytes (a_rdata a) = opt_bytes (rr_rdata r)) by congruence.
      split; [rewrite K'; exact W0|congruence].
Qed.

Lemma a_match_c_match : forall r c, a_match r (c_rr c) = true -> c_match (rr_name r) (rr_type r) c = true.
Proof.
  intros r c M. apply c_match_iff. unfold a_match in M. destruct (bytes_eqb (rr_name r) (a_name (c_rr c))) eqn:En; [|discriminate].
  apply bytes_eqb_eq in En. destruct (rr_type r =? a_type (c_rr c)) eqn:Et; [|discriminate]. apply Z.eqb_eq in Et. auto.
Qed.
Definition holds_rr (r : resource) (c : cached) : bool := a_match r (c_rr c).
Lemma holds_rr_find : forall r l, find (fun c => c_match (rr_name r) (rr_type r) c && a_match r (c_rr c)) l = find (holds_rr r) l.
Proof.
  intros r l. induction l as [|c l IH]; [reflexivity|]. cbn [find]. unfold holds_rr at 1. destruct (a_match r (c_rr c)) eqn:M.
  - rewrite (a_match_c_match _ _ M). reflexivity.
  - rewrite andb_false_r. exact IH.
Qed.

Lemma cache_answer_ok : forall r ttl from, wf_resource r ->
  exists a, cache_answer r ttl from = Some a /\ akey a = rkey r /\ a_ttl a = ttl /\ a_name a = rr_name r /\ a_type a = rr_type r.
Proof.
  intros r ttl from (_ & W0 & W1 & W2 & W3 & W4). unfold cache_answer.
  assert (X : forall t, rr_type r = t -> forall u, t <> u -> (rr_type r =? u) = false) by (intros; lia).
  unfold akey, adata, rkey, rdata_of. cbv zeta.
  destruct (rr_type r =? QTYPE_A) eqn:C1.
  { eexists. split; [reflexivity|]. cbn [a_name a_type a_ttl put_ip]. apply Z.eqb_eq in C1. rewrite C1. repeat split. }
  destruct (rr_type r =? QTYPE_AAAA) eqn:C2.
  { eexists. split; [reflexivity|]. cbn [a_name a_type a_ttl put_ip6]. apply Z.eqb_eq in C2. rewrite C2. repeat split. }
  destruct (is_name_type (rr_type r)) eqn:C3.
  { destruct (W2 eq_refl) as (n & E). unfold known_name. rewrite E. eexists. split; [reflexivity|].
    assert (S : (rr_type r =? QTYPE_SRV) = false) by (unfold is_name_type, QTYPE_PTR, QTYPE_NS, QTYPE_CNAME, QTYPE_SRV in *; lia).
    destruct (family from =? AF_INET6); cbn [a_name a_type a_ttl a_rdname put_ip6 put_ip put_host]; rewrite S, C3; repeat split. }
  destruct (rr_type r =? QTYPE_SRV) eqn:C4.
  { destruct (W1 ltac:(lia)) as (p & w & q & n & E). unfold known_name, known_srv. rewrite E. eexists. split; [reflexivity|].
    cbn [a_name a_type a_ttl a_rdname a_prio a_weight a_port put_srv put_host]. rewrite C4. repeat split. }
  eexists. split; [reflexivity|]. cbn [a_name a_type a_ttl a_rdata]. rewrite C4, C3, C1, C2. repeat split.
  replace (opt_bytes (if rr_rdlength r =? 0 then None else rr_rdata r)) with (opt_bytes (rr_rdata r)); [reflexivity|].
  destruct (rr_rdlength r =? 0) eqn:Z0; [|reflexivity]. cbn [opt_bytes]. destruct (opt_bytes (rr_rdata r)); [reflexivity|]. rewrite zlen_cons in W0. pose proof (zlen_nonneg _ l). lia.
Qed.

(* ------------------------------------------------------------------ *)
(* _q_next *)

Lemma find_query_spec : forall s l host type, (forall q, In q l -> qh s q <> None) ->
  exists o, find_query s l host type = Ok o /\
    match o with
    | Some q => In q l /\ exists x, qh s q = Some x /\ q_nm x = host /\ q_ty x = type
    | None => forall q x, In q l -> qh s q = Some x -> ~ (q_nm x = host /\ q_ty x = type)
    end.
Proof.
  intros s l host type. induction l as [|q l IH]; intros L; cbn [find_query].
  - exists None. split; [reflexivity|]. intros q x [].
  - destruct (qh s q) as [x|] eqn:E; [|destruct (L q (or_introl eq_refl) E)]. rewrite (qget_some _ _ _ E). cbn [bind].
    destruct ((q_ty x =? type) && bytes_eqb (q_nm x) host) eqn:M.
    + exists (Some q). split; [reflexivity|]. split; [left; reflexivity|]. exists x. apply andb_true_iff in M as [M1 M2]. apply bytes_eqb_eq in M2. split; [exact E|]. split; [exact M2|lia].
    + destruct (IH (fun p I => L p (or_intror I))) as (o & Eo & So). exists o. split; [exact Eo|]. destruct o as [p|].
      * destruct So as [I So]. split; [right; exact I|exact So].
      * intros p y [->|I] Ey [K1 K2]; [|exact (So p y I Ey (conj K1 K2))]. replace y with x in * by congruence. rewrite K1, K2, Z.eqb_refl, bytes_eqb_refl in M. discriminate.
Qed.

Lemma q_find_spec : forall s host type, qinv s ->
  exists o, q_find s host type = Ok o /\
    match o with
    | Some q => exists x, qh s q = Some x /\ q_nm x = host /\ q_ty x = type
    | None => forall q x, qh s q = Some x -> ~ (q_nm x = host /\ q_ty x = type)
    end.
Proof.
  intros s host type H. unfold q_find.
  destruct (find_query_spec s (nth (qbucket host) (qtab s) []) host type) as (o & Eo & So).
  { intros q I. apply (qi_live _ H). apply (qi_tab _ H). apply in_concat_nth. exists (qbucket host). exact I. }
  exists o. split; [exact Eo|]. destruct o as [q|]; [apply So|].
  intros q x E K. apply (So q x); [|exact E|exact K].
  assert (I : In q (concat (qtab s))) by (apply (qi_tab _ H); apply (qi_live _ H); congruence).
  apply in_concat_nth in I. destruct I as (i & I). destruct K as [K _]. rewrite <- K, (qi_bucket _ H i q x I E). exact I.
Qed.

(* ------------------------------------------------------------------ *)
(* Goodbyes *)

Lemma find_key_unique : forall r l c, wf_resource r -> NoDup (map (fun c => akey (c_rr c)) l) -> NoDup (map c_id l) -> find (holds_rr r) l = Some c ->
  forall x, In x l -> Nat.eqb (c_id x) (c_id c) = holds_rr r x.
Proof.
  intros r l c W N Ni F x I. apply find_some in F as [Ic Mc].
  destruct (holds_rr r x) eqn:Mx.
  - unfold holds_rr in *. apply a_match_key in Mc; [|exact W]. apply a_match_key in Mx; [|exact W].
    apply Nat.eqb_eq. f_equal. assert (K : akey (c_rr x) = akey (c_rr c)) by congruence. clear - N K I Ic.
    induction l as [|y l IH]; [contradiction|]. cbn [map] in N. inversion N as [|? ? N1 N2]; subst. destruct I as [->|I], Ic as [->|Ic]; auto.
    + exfalso. apply N1. rewrite K. apply (in_map (fun c => akey (c_rr c))). exact Ic.
    + exfalso. apply N1. rewrite <- K. apply (in_map (fun c => akey (c_rr c))). exact I.
  - apply Nat.eqb_neq. intros E. assert (x = c); [|subst; congruence]. clear - Ni E I Ic.
    induction l as [|y l IH]; [contradiction|]. cbn [map] in Ni. inversion Ni as [|? ? N1 N2]; subst. destruct I as [->|I], Ic as [->|Ic]; auto.
    + exfalso. apply N1. rewrite E. apply in_map. exact Ic.
    + exfalso. apply N1. rewrite <- E. apply in_map. exact I.
Qed.

Definition withdrawn (now : Z) (r : resource) (l : list cached) : list cached :=
  if existsb (holds_rr r) l then filter (survives now (holds_rr r)) l else l.

Lemma existsb_find : forall (A : Type) (p : A -> bool) l, existsb p l = match find p l with Some _ => true | None => false end.
Proof. intros A p l. induction l as [|x l IH]; [reflexivity|]. cbn [existsb find]. destruct (p x); [reflexivity|exact IH]. Qed.

Lemma find_crel : forall r l l', Forall2 crel l l' -> find (holds_rr r) l = None -> find (holds_rr r) l' = None.
Proof.
  intros r l l' F. induction F as [|x y l l' (_ & P & _) F IH]; [reflexivity|]. cbn [find]. unfold holds_rr at 1 3. rewrite P. destruct (a_match r (c_rr x)); [discriminate|exact IH].
Qed.
Lemma find_survives : forall now r l, find (holds_rr r) (filter (survives now (holds_rr r)) l) = None.
Proof.
  intros now r l. induction l as [|c l IH]; [reflexivity|]. cbn [filter]. destruct (survives now (holds_rr r) c) eqn:S; [|exact IH]. cbn [find].
  unfold survives in S. apply andb_true_iff in S as [_ S]. destruct (holds_rr r c); [discriminate|exact IH].
Qed.

Lemma delete_loop_spec : forall n s now cb i r, qinv s -> (i < Z.to_nat LPRIME)%nat -> 0 <= now -> wf_resource r -> (length (centries s i) < n)%nat ->
  exists s' T, delete_loop n s now cb i r = Ok s' /\ qinv s' /\ shrinks cb s s' T /\
    Forall2 crel (withdrawn now r (centries s i)) (centries s' i) /\ (forall j, j <> i -> Forall2 crel (centries s j) (centries s' j)) /\
    ((forall k, cb k = false) -> qh s' = qh s /\ qlist s' = qlist s /\ qtab s' = qtab s /\ centries s' i = withdrawn now r (centries s i) /\
       (forall j, j <> i -> centries s' j = centries s j) /\
       T = if existsb (holds_rr r) (centries s i) then flat_map (farewell s) (filter (fun c => negb (survives now (holds_rr r) c)) (centries s i)) else []).
Proof.
  intros [|n] s now cb i r H Li N W Ln; [lia|]. cbn [delete_loop]. rewrite holds_rr_find. unfold withdrawn. rewrite existsb_find.
  destruct (find (holds_rr r) (centries s i)) as [c|] eqn:F.
  - assert (K : map (fun x => if Nat.eqb (c_id x) (c_id c) then set_cttl x 0 else x) (centries s i) = kill (holds_rr r) (centries s i)).
    { apply map_ext_in. intros x I. rewrite (find_key_unique r (centries s i) c W (qi_dup _ H i) (qi_cid _ H i) F x I). reflexivity. }
    rewrite K. destruct (expire_kill s now cb i (holds_rr r) H Li N) as (s1 & T & E1 & H1 & S1 & R1 & O1 & Z1). rewrite E1. cbn [bind].
    destruct n as [|n]. { exfalso. destruct (centries s i); [discriminate|cbn [length] in Ln; lia]. }
    cbn [delete_loop]. rewrite holds_rr_find. rewrite (find_crel r _ _ R1 (find_survives now r _)).
    exists s1, T. split; [reflexivity|]. split; [exact H1|]. split; [exact S1|]. split; [exact R1|]. split; [exact O1|exact Z1].
  - exists s, []. split; [reflexivity|]. split; [exact H|]. split; [apply shrinks_refl|]. split; [apply Forall2_refl'; apply crel_refl|].
    split; [intros; apply Forall2_refl'; apply crel_refl|]. intros _. repeat split.
Qed.

(* ------------------------------------------------------------------ *)
(* _cache *)

Definition flushed (now : Z) (fl : bool) (n : list Z) (ty : Z) (l : list cached) : list cached :=
  if fl then filter (survives now (c_match n ty)) l else l.
Definition refreshed (ttl : Z) (r : resource) (l : list cached) : list cached :=
  map (fun c => if holds_rr r c then set_cttl c ttl else c) l.

(* The bucket after receiving r; id is the identity of a new entry *)
Definition cached_in (id : nat) (now cls : Z) (r : resource) (from : addr) (o : option nat) (l : list cached) : list cached :=
  let l := flushed now (rr_class r =? 32768 + cls) (rr_name r) (rr_type r) l in
  if rr_ttl r =? 0 then withdrawn now r l
  else if existsb (holds_rr r) l then refreshed (now + rr_ttl r / 2 + 8) r l
  else match cache_answer r (now + rr_ttl r / 2 + 8) from with
       | Some a => mkcached id a o :: l
       | None => l
       end.

(* The registered query with exactly this name and type *)
Definition query_for (s : qrys) (n : list Z) (ty : Z) (o : option nat) : Prop :=
  match o with
  | Some q => exists x, qh s q = Some x /\ q_nm x = n /\ q_ty x = ty
  | None => forall q x, qh s q = Some x -> ~ (q_nm x = n /\ q_ty x = ty)
  end.

(* What is told when no callback unregisters its query *)
Definition told_of (s : qrys) (now cls : Z) (r : resource) (from : addr) (o : option nat) (l : list cached) : list (nat * answer) :=
  let fl := rr_class r =? 32768 + cls in
  let l' := flushed now fl (rr_name r) (rr_type r) l in
  (if fl then flat_map (farewell s) (filter (fun c => negb (survives now (c_match (rr_name r) (rr_type r)) c)) l) else []) ++
  (if rr_ttl r =? 0 then
     if existsb (holds_rr r) l' then flat_map (farewell s) (filter (fun c => negb (survives now (holds_rr r) c)) l') else []
   else if existsb (holds_rr r) l' then []
   else match o, cache_answer r (now + rr_ttl r / 2 + 8) from with
        | Some q, Some a => match qh s q with Some x => [(q_cb x, a)] | None => [] end
        | _, _ => []
        end).

Lemma flush_spec : forall s now cb cls i r, qinv s -> (i < Z.to_nat LPRIME)%nat -> 0 <= now ->
  let fl := rr_class r =? 32768 + cls in
  exists s' T,
    (if fl then c_expire (set_centries s i (map (fun c => if c_match (rr_name r) (rr_type r) c then set_cttl c 0 else c) (centries s i))) now cb i else Ok s) = Ok s' /\
    qinv s' /\ shrinks cb s s' T /\
    Forall2 crel (flushed now fl (rr_name r) (rr_type r) (centries s i)) (centries s' i) /\ (forall j, j <> i -> Forall2 crel (centries s j) (centries s' j)) /\
    ((forall k, cb k = false) -> qh s' = qh s /\ qlist s' = qlist s /\ qtab s' = qtab s /\ centries s' i = flushed now fl (rr_name r) (rr_type r) (centries s i) /\
       (forall j, j <> i -> centries s' j = centries s j) /\
       T = if fl then flat_map (farewell s) (filter (fun c => negb (survives now (c_match (rr_name r) (rr_type r)) c)) (centries s i)) else []).
Proof.
  intros s now cb cls i r H Li N fl. unfold flushed. destruct fl.
  - exact (expire_kill s now cb i (c_match (rr_name r) (rr_type r)) H Li N).
  - exists s, []. split; [reflexivity|]. split; [exact H|]. split; [apply shrinks_refl|]. split; [apply Forall2_refl'; apply crel_refl|].
    split; [intros; apply Forall2_refl'; apply crel_refl|]. intros _. repeat split.
Qed.

Lemma withdrawn_crel : forall now r l l', Forall2 crel l l' -> Forall2 crel (withdrawn now r l) (withdrawn now r l').
Proof.
  intros now r l l' F. unfold withdrawn.
  assert (E : existsb (holds_rr r) l' = existsb (holds_rr r) l).
  { induction F as [|x y l l' (_ & P & _) F IH]; [reflexivity|]. cbn [existsb]. rewrite IH. unfold holds_rr. rewrite P. reflexivity. }
  rewrite E. destruct (existsb (holds_rr r) l); [|exact F]. clear E. induction F as [|x y l l' P F IH]; [constructor|]. cbn [filter].
  assert (E : survives now (holds_rr r) y = survives now (holds_rr r) x) by (destruct P as (_ & P & _); unfold survives, alive, holds_rr; rewrite P; reflexivity).
  rewrite E. destruct (survives now (holds_rr r) x); [constructor; assumption|exact IH].
Qed.
Lemma existsb_crel : forall r l l', Forall2 crel l l' -> existsb (holds_rr r) l' = existsb (holds_rr r) l.
Proof. intros r l l' F. induction F as [|x y l l' (_ & P & _) F IH]; [reflexivity|]. cbn [existsb]. rewrite IH. unfold holds_rr. rewrite P. reflexivity. Qed.
Lemma refreshed_crel : forall t r l l', Forall2 crel l l' -> Forall2 crel (refreshed t r l) (refreshed t r l').
Proof.
  intros t r l l' F. unfold refreshed. induction F as [|x y l l' P F IH]; [constructor|]. cbn [map]. constructor; [|exact IH].
  destruct P as (P1 & P2 & P3). unfold holds_rr. rewrite P2. destruct (a_match r (c_rr x)); [|split; auto]. split; [exact P1|]. split; [cbn [set_cttl c_rr]; rewrite P2; reflexivity|exact P3].
Qed.

(* Adding an entry *)
Lemma insert_inv : forall s i a o, qinv s -> (i < Z.to_nat LPRIME)%nat -> cbucket (a_name a) = i ->
  (forall c, In c (centries s i) -> akey (c_rr c) <> akey a) ->
  match o with Some q => exists x, qh s q = Some x /\ q_nm x = a_name a /\ q_ty x = a_type a | None => True end ->
  qinv (mkqrys (qh s) (qfresh s) (qlist s) (qtab s) (upd (cache s) i (mkcached (cfresh s) a o :: centries s i)) (S (cfresh s)) (checkq s) (ncb s) (told s)).
Proof.
  intros s i a o [F L N T1 T2 T3 T4 O C1 C2 C3 C4 C5 C6] Li B D Q.
  set (s' := mkqrys _ _ _ _ _ _ _ _ _).
  assert (Es : centries s' i = mkcached (cfresh s) a o :: centries s i) by (unfold centries, s'; cbn [cache]; apply nth_upd_same; rewrite C1; exact Li).
  assert (Eo : forall j, j <> i -> centries s' j = centries s j) by (intros j J; unfold centries, s'; cbn [cache]; apply nth_upd_other; congruence).
  assert (I : forall j c, In c (centries s' j) -> (j = i /\ c = mkcached (cfresh s) a o) \/ In c (centries s j)).
  { intros j c Ic. destruct (Nat.eq_dec j i) as [->|J]; [rewrite Es in Ic; destruct Ic; auto|]. rewrite Eo in Ic by exact J. auto. }
  split; try assumption.
  - cbn [s' cache]. rewrite upd_length. exact C1.
  - intros j c Ic. destruct (I j c Ic) as [[-> ->]|J]; [exact B|apply C2; exact J].
  - intros j. destruct (Nat.eq_dec j i) as [->|J]; [|rewrite Eo by exact J; apply C3]. rewrite Es. cbn [map c_id]. constructor; [|apply C3].
    intros K. apply in_map_iff in K. destruct K as (c & K1 & K2). apply C4 in K2. lia.
  - intros j c Ic. cbn [s' cfresh]. destruct (I j c Ic) as [[-> ->]|J]; [cbn [c_id]; lia|apply C4 in J; lia].
  - intros j c q Ic Eq. destruct (I j c Ic) as [[-> ->]|J]; [|exact (C5 j c q J Eq)]. cbn [c_q] in Eq. subst o. destruct Q as (x & Ex & K1 & K2). exists x.
    split; [exact Ex|]. apply c_match_iff. cbn [c_rr]. auto.
  - intros j. destruct (Nat.eq_dec j i) as [->|J]; [|rewrite Eo by exact J; apply C6]. rewrite Es. cbn [map c_rr]. constructor; [|apply C6].
    intros K. apply in_map_iff in K. destruct K as (c & K1 & K2). apply (D c K2). exact K1.
Qed.

Lemma cache_rr_spec : forall s now cb cls r from, qinv s -> 0 <= now -> wf_resource r ->
  let i := cbucket (rr_name r) in
  exists s' T o id, cache_rr s now cb cls r from = Ok s' /\ qinv s' /\ shrinks cb s s' T /\
    Forall2 crel (cached_in id now cls r from o (centries s i)) (centries s' i) /\ (forall j, j <> i -> Forall2 crel (centries s j) (centries s' j)) /\
    ((forall k, cb k = false) -> qh s' = qh s /\ qlist s' = qlist s /\ qtab s' = qtab s /\ query_for s (rr_name r) (rr_type r) o /\
       centries s' i = cached_in id now cls r from o (centries s i) /\
       (forall j, j <> i -> centries s' j = centries s j) /\
       T = told_of s now cls r from o (centries s i)).
Proof.
  intros s now cb cls r from H N W i. assert (Li : (i < Z.to_nat LPRIME)%nat) by apply cbucket_lt.
  unfold cache_rr. cbv zeta. fold i.
  destruct (flush_spec s now cb cls i r H Li N) as (s1 & T1 & E1 & H1 & S1 & R1 & O1 & Z1). cbv zeta in E1, R1, Z1. rewrite E1. cbn [bind]. clear E1.
  unfold cached_in, told_of. set (fl := rr_class r =? 32768 + cls) in *. set (l1 := flushed now fl (rr_name r) (rr_type r) (centries s i)) in *.
  destruct (q_find_spec s1 (rr_name r) (rr_type r) H1) as (o & Eo & So).
  destruct (rr_ttl r =? 0) eqn:T0.
  - destruct (delete_loop_spec (S (length (centries s1 i))) s1 now cb i r H1 Li N W ltac:(lia)) as (s2 & T2 & E2 & H2 & S2 & R2 & O2 & Z2).
    exists s2, (T1 ++ T2), o, 0%nat. split; [exact E2|]. split; [exact H2|]. split; [eapply shrinks_trans; eauto|]. split; [|split].
    + eapply (Forall2_trans' _ crel crel_trans); [|exact R2]. apply withdrawn_crel. exact R1.
    + intros j D. eapply (Forall2_trans' _ crel crel_trans); [apply O1|apply O2]; exact D.
    + intros Cb. destruct (Z1 Cb) as (A1 & A2 & A3 & A4 & A5 & A6). destruct (Z2 Cb) as (B1 & B2 & B3 & B4 & B5 & B6).
      split; [congruence|]. split; [congruence|]. split; [congruence|]. split.
      { unfold query_for. rewrite <- A1. exact So. }
      split; [rewrite B4, A4; reflexivity|]. split; [intros j D; rewrite (B5 j D); apply A5; exact D|].
      rewrite A6, B6, A4. f_equal. destruct (existsb (holds_rr r) l1); [|reflexivity]. apply flat_map_ext. intros c. unfold farewell. rewrite A1. reflexivity.
  - rewrite holds_rr_find. assert (Ex := existsb_find _ (holds_rr r) (centries s1 i)). rewrite (existsb_crel r _ _ R1) in Ex. rewrite Ex.
    set (ttl := now + rr_ttl r / 2 + 8) in *. assert (Tp : now < ttl) by (destruct W as [W _]; unfold ttl; lia).
    destruct (find (holds_rr r) (centries s1 i)) as [c|] eqn:F.
    + assert (K : map (fun x => if Nat.eqb (c_id x) (c_id c) then set_cttl x ttl else x) (centries s1 i) = refreshed ttl r (centries s1 i)).
      { apply map_ext_in. intros x I. rewrite (find_key_unique r (centries s1 i) c W (qi_dup _ H1 i) (qi_cid _ H1 i) F x I). reflexivity. }
      rewrite K. set (s2 := set_centries s1 i (refreshed ttl r (centries s1 i))).
      assert (E2 : centries s2 i = refreshed ttl r (centries s1 i)) by (apply centries_set_same; rewrite (qi_clen _ H1); exact Li).
      assert (O2 : forall j, j <> i -> centries s2 j = centries s1 j) by (intros j D; apply centries_set_other; exact D).
      exists s2, T1, o, 0%nat. split; [reflexivity|]. split.
      { eapply set_centries_inv; [exact H1|apply sub_refl|]. apply Forall2_map_r. intros x _. destruct (holds_rr r x); [apply set_cttl_keep|apply crel_keep, crel_refl]. }
      split; [destruct S1; split; assumption|]. split; [rewrite E2; apply refreshed_crel; exact R1|]. split; [intros j D; rewrite (O2 j D); apply O1; exact D|].
      intros Cb. destruct (Z1 Cb) as (A1 & A2 & A3 & A4 & A5 & A6). split; [exact A1|]. split; [exact A2|]. split; [exact A3|]. split.
      { unfold query_for. rewrite <- A1. exact So. }
      split; [rewrite E2, A4; reflexivity|]. split; [intros j D; rewrite (O2 j D); apply A5; exact D|]. rewrite app_nil_r. exact A6.
    + destruct (cache_answer_ok r ttl from W) as (a & Ea & Ka & Ta & Na & Ya). rewrite Ea, Eo.
      assert (G : negb (rr_rdlength r =? 0) && match rr_rdata r with None => true | Some _ => false end = false).
      { destruct W as (_ & W & _). destruct (rr_rdata r); [apply andb_false_r|]. cbn [opt_bytes] in W. rewrite zlen_nil in W. rewrite W. reflexivity. }
      rewrite G. cbn [bind]. set (c := mkcached (cfresh s1) a o). set (s2 := mkqrys _ _ _ _ _ _ _ _ _).
      assert (H2 : qinv s2).
      { apply insert_inv; try assumption; [rewrite Na; reflexivity| |].
        - intros x I K. pose proof (find_none _ _ F x I) as M. unfold holds_rr in M. rewrite Ka in K. apply a_match_key in K; [congruence|exact W].
        - destruct o as [q|]; [|exact Logic.I]. rewrite Na, Ya. exact So. }
      assert (E2 : centries s2 i = c :: centries s1 i) by (unfold centries, s2; cbn [cache]; apply nth_upd_same; rewrite (qi_clen _ H1); exact Li).
      assert (O2 : forall j, j <> i -> centries s2 j = centries s1 j) by (intros j D; unfold centries, s2; cbn [cache]; apply nth_upd_other; congruence).
      assert (S2 : forall s' T, shrinks cb s2 s' T -> shrinks cb s1 s' T).
      { intros s' T [B1 B2 B3 B4 B5 B6 B7 B8]. split; try assumption. cbn [s2 cfresh] in B6. lia. }
      destruct o as [q|].
      * destruct So as (x & Ex' & Nx & Yx).
        destruct (q_answer_spec s2 now cb c q x H2 eq_refl Ex') as (s3 & E3 & H3 & S3 & R3 & F3 & _).
        { split; [cbn [c c_rr]; congruence|left; cbn [c c_rr]; congruence]. }
        rewrite E3. cbv zeta in R3, F3. cbn [c c_rr c_id] in R3, F3. rewrite Na in R3, F3. fold i in R3, F3.
        assert (TN : ttl_now now a = a) by (unfold ttl_now; replace (a_ttl a <=? now) with false by lia; reflexivity).
        assert (WI : with_ttl (cfresh s1) (a_ttl (ttl_now now a)) (centries s2 i) = centries s2 i).
        { rewrite TN, E2. unfold with_ttl. cbn [map c c_id]. rewrite Nat.eqb_refl. f_equal; [unfold set_cttl; cbn [c_id c_rr c_q]; rewrite set_ttl_same; reflexivity|].
          apply with_ttl_notin. intros K. apply in_map_iff in K. destruct K as (y & K1 & K2). apply (qi_cfresh _ H1) in K2. lia. }
        rewrite WI, set_centries_id in R3, F3.
        exists s3, (T1 ++ [(q_cb x, a)]), (Some q), (cfresh s1). split; [reflexivity|]. split; [exact H3|].
        split. { eapply shrinks_trans; [exact S1|]. apply S2. cbn [c c_rr] in S3. rewrite TN in S3. exact S3. }
        split. { eapply (Forall2_trans' _ crel crel_trans); [|apply R3]. rewrite E2. constructor; [apply crel_refl|exact R1]. }
        split. { intros j D. eapply (Forall2_trans' _ crel crel_trans); [apply O1; exact D|]. rewrite <- (O2 j D). apply R3. }
        intros Cb. destruct (Z1 Cb) as (A1 & A2 & A3 & A4 & A5 & A6). specialize (F3 (Cb _)).
        split; [rewrite F3; exact A1|]. split; [rewrite F3; exact A2|]. split; [rewrite F3; exact A3|].
        split; [exists x; rewrite <- A1; auto|]. split; [rewrite F3; change (centries s2 i = mkcached (cfresh s1) a (Some q) :: l1); rewrite E2, A4; reflexivity|].
        split; [intros j D; rewrite F3; change (centries s2 j = centries s j); rewrite (O2 j D); apply A5; exact D|].
        rewrite A6, <- A1, Ex'. reflexivity.
      * exists s2, T1, None, (cfresh s1). split; [reflexivity|]. split; [exact H2|]. split; [rewrite <- (app_nil_r T1); eapply shrinks_trans; [exact S1|]; apply S2; apply shrinks_refl|].
        split; [rewrite E2; constructor; [apply crel_refl|exact R1]|]. split; [intros j D; rewrite (O2 j D); apply O1; exact D|].
        intros Cb. destruct (Z1 Cb) as (A1 & A2 & A3 & A4 & A5 & A6). split; [exact A1|]. split; [exact A2|]. split; [exact A3|].
        split; [unfold query_for; rewrite <- A1; exact So|]. split; [rewrite E2, A4; reflexivity|].
        split; [intros j D; rewrite (O2 j D); apply A5; exact D|]. rewrite app_nil_r. exact A6.
Qed.
