(* Supporting proofs for PropMquery.v: the callback of -D. *)
From Verif Require Import Base Lemmas SpecDns SpecMap SpecTxt Hash HashProofs Xht XhtProofs SdTxt SdTxtProofs Wire Rec Qry Out In Api Reent SpecReent ReentRuns Mquery SpecMquery FactsMq.

Lemma cut_some : forall n s, s <> [] -> 1 < n -> cut n s <> [].
Proof. intros n [|c s] N L K; [congruence|]. unfold cut in K. replace (Z.to_nat (n - 1)) with (S (Z.to_nat (n - 2))) in K by lia. discriminate K. Qed.

Definition new_instance (n : list Z) : instance := mkinstance n [] 0 [] [].
Definition same_name (f : instance -> instance) : Prop := forall i, i_name (f i) = i_name i.

(* What an instance says, from the calls *)
Definition fits (T : list call) (i : instance) : Prop :=
  (exists o, first_of (located (i_name i)) T o /\ (i_host i, i_port i) = match o with Some p => p | None => ([], 0) end) /\
  (exists o, first_of (described (i_name i) S_PRODUCT) T o /\ i_product i = match o with Some v => cut 64 v | None => [] end) /\
  (exists o, first_of (described (i_name i) S_VERSION) T o /\ i_version i = match o with Some v => cut 64 v | None => [] end).
Definition inst_inv (T : list call) (s : tables) : Prop :=
  NoDup (map i_name (instances s)) /\ (forall n, In n (map i_name (instances s)) <-> exists c, In c T /\ tells_of n c) /\ forall i, In i (instances s) -> fits T i.

Lemma located_tells : forall n c p, located n c p -> tells_of n c.
Proof. intros n c p (T & A1 & A2 & A3 & A4 & _). split; [exact T|]. right. left. split; [exact A1|]. split; [exact A2|]. eauto. Qed.
Lemma described_tells : forall n k c v, described n k c v -> tells_of n c.
Proof. intros n k c v (T & A1 & A2 & A3 & data & strs & A4 & A5 & _). split; [exact T|]. right. right. split; [exact A1|]. split; [exact A2|]. eauto. Qed.

Lemma fits_other : forall T i c, fits T i -> ~ tells_of (i_name i) c -> fits (T ++ [c]) i.
Proof.
  intros T i c ((o1 & F1 & E1) & (o2 & F2 & E2) & (o3 & F3 & E3)) N.
  split; [exists o1|split; [exists o2|exists o3]]; (split; [|assumption]); apply first_snoc; try assumption; right; intros b K; apply N; (eapply located_tells; exact K) || (eapply described_tells; exact K).
Qed.
Lemma fits_new : forall T n, (forall c, In c T -> ~ tells_of n c) -> fits T (new_instance n).
Proof.
  intros T n N. split; [|split]; exists None; (split; [|reflexivity]); intros c b I K; apply (N c I); (eapply located_tells; exact K) || (eapply described_tells; exact K).
Qed.
Lemma inst_same : forall T s c s', inst_inv T s -> instances s' = instances s -> (forall n, ~ tells_of n c) -> inst_inv (T ++ [c]) s'.
Proof.
  intros T s c s' (I1 & I2 & I3) E N. unfold inst_inv. rewrite E. split; [exact I1|]. split.
  - intros n. rewrite I2. split; intros (c' & I & K); exists c'; (split; [|exact K]); [apply in_or_app; auto|]. apply in_app_or in I as [I|[<-|[]]]; [exact I|destruct (N n K)].
  - intros i I. apply fits_other; [apply I3; exact I|apply N].
Qed.
Lemma inst_touched : forall T s c name f s', inst_inv T s -> instances s' = touch i_name no_instance new_instance (instances s) name f -> same_name f ->
  (forall n, tells_of n c <-> n = name) -> (forall i, i_name i = name -> fits T i -> fits (T ++ [c]) (f i)) -> inst_inv (T ++ [c]) s'.
Proof.
  intros T s c name f s' (I1 & I2 & I3) E Kf N F.
  pose proof (fun m => touch_row i_name no_instance new_instance (instances s) name f m I1 eq_refl Kf) as Tr. cbv zeta in Tr. rewrite <- E in Tr. destruct (Tr name) as (_ & N1 & N2).
  split; [exact N1|]. split.
  - intros n. rewrite N2. split.
    + intros [->|I]; [exists c; split; [apply in_or_app; right; left; reflexivity|apply N; reflexivity]|]. apply I2 in I as (c' & I & K). exists c'. split; [apply in_or_app; auto|exact K].
    + intros (c' & I & K). apply in_app_or in I as [I|[<-|[]]]; [right; apply I2; eauto|left; apply N; exact K].
  - intros i Ii. pose proof (row_in i_name (instances s') i N1 Ii) as Ri. destruct (Tr (i_name i)) as (Ti & _). rewrite Ti in Ri. destruct (bytes_eqb name (i_name i)) eqn:En.
    + injection Ri as <-. destruct (row i_name (instances s) name) as [w|] eqn:Rw.
      * apply row_some in Rw as [Iw Kw]. apply F; [exact Kw|apply I3; exact Iw].
      * apply row_none in Rw. rewrite I2 in Rw. apply F; [reflexivity|]. apply fits_new. intros c' I K. apply Rw. eauto.
    + apply row_some in Ri as [Iw _]. apply fits_other; [apply I3; exact Iw|]. intros K. apply N in K. apply bytes_eqb_neq in En. congruence.
Qed.

Lemma create_touch : forall l name f, zlen name <= 255 ->
  (let '(l', k) := find_or_create_instance l name in upd l' k (f (nth k l' no_instance))) = touch i_name no_instance new_instance l name f.
Proof.
  intros l name f L. unfold find_or_create_instance, touch. change (fun i => bytes_eqb (i_name i) name) with (is i_name name). destruct (index_of _ _) as [k|]; [reflexivity|]. cbn [nth upd]. rewrite cut_id by lia. reflexivity.
Qed.
Lemma upd_nth : forall A (l : list A) k d, upd l k (nth k l d) = l.
Proof. intros A l. induction l as [|x l IH]; intros [|k] d; cbn [upd nth]; [reflexivity|reflexivity|reflexivity|]. rewrite IH. reflexivity. Qed.
Lemma create_id : forall l name, zlen name <= 255 -> fst (find_or_create_instance l name) = touch i_name no_instance new_instance l name (fun i => i).
Proof.
  intros l name L. rewrite <- create_touch by exact L. destruct (find_or_create_instance l name) as [l' k]. cbn [fst]. rewrite upd_nth. reflexivity.
Qed.

Section Calls.
Variable ntop : Z -> list Z -> list Z.

Lemma types : QTYPE_PTR = 12 /\ QTYPE_SRV = 33 /\ QTYPE_TXT = 16 /\ QTYPE_A = 1 /\ QTYPE_AAAA = 28.
Proof. repeat split. Qed.

(* It always succeeds and only registers. *)
Lemma ans_dev_total : adding (ans_dev ntop) (fun _ => True).
Proof.
  assert (Rg : forall n ty k, registering (n, ty, Some k)) by (intros n ty k; unfold registering; eauto).
  assert (D : forall v text, exists v', device_add_addr v text = Ok v') by (intros v text; unfold device_add_addr, ADDRS; destruct (existsb _ _); [eauto|]; destruct (_ <? 8); eauto).
  assert (Ad : forall s name text, exists s' l, add_device s name text = Ok (s', l, false) /\ True /\ Forall registering l).
  { intros s name text. unfold add_device. destruct (find_or_create_device _ _) as [l k]. destruct (D (nth k l no_device) text) as (v & E). rewrite E. cbn [bind]. eexists. eexists. split; [reflexivity|]. split; [exact Logic.I|constructor]. }
  assert (Id : forall s, exists s' l, @Ok (tables * list qcall * bool) (s, [], false) = Ok (s', l, false) /\ True /\ Forall registering l) by (intros s; exists s, []; repeat split; constructor).
  intros s k x _ N. unfold ans_dev. destruct (a_ttl x =? 0); [apply Id|]. destruct (a_type x =? QTYPE_PTR).
  { destruct (a_rdname x) as [[|c n]|]; try apply Id. destruct (Nat.eqb k PLAIN); eexists; eexists; (split; [reflexivity|]); (split; [exact Logic.I|]); repeat (constructor; [apply Rg|]); constructor. }
  destruct (a_type x =? QTYPE_SRV).
  { destruct (a_rdname x) as [[|c n]|]; try apply Id. destruct (find_or_create_instance _ _) as [l j]. cbv zeta. destruct (i_host (nth j l no_instance)); eexists; eexists; (split; [reflexivity|]); (split; [exact Logic.I|]); repeat (constructor; [apply Rg|]); constructor. }
  destruct (a_type x =? QTYPE_TXT).
  { destruct (a_rdata x) as [[|c data]|]; try apply Id. destruct (find_or_create_instance _ _) as [l j]. cbv zeta. destruct (txt_ok (c :: data)) as (strs & t & _ & E & _). rewrite E. cbn [bind].
    eexists. eexists. split; [reflexivity|]. split; [exact Logic.I|constructor]. }
  destruct (a_type x =? QTYPE_A); [apply Ad|]. destruct (a_type x =? QTYPE_AAAA); [apply Ad|apply Id].
Qed.

Hypothesis ntop_short : forall f a, zlen (ntop f a) < INET6_ADDRSTRLEN.

Lemma none_tells : forall (k : nat) x, a_ttl x = 0 \/ (a_type x <> 12 /\ a_type x <> 33 /\ a_type x <> 16) -> forall n, ~ tells_of n (k, x).
Proof. destruct types as (Q1 & Q2 & Q3 & Q4 & Q5). intros k x K n (T & D). unfold there in T. cbn [fst snd] in *. rewrite Q1, Q2, Q3 in D. destruct K as [K|(K1 & K2 & K3)]; [congruence|]. destruct D as [(D & _)|[(D & _)|(D & _)]]; congruence. Qed.
Lemma no_addresses : forall (k : nat) x h, a_ttl x = 0 \/ (a_type x <> 1 /\ a_type x <> 28) -> addresses_in ntop h (k, x) = [].
Proof.
  destruct types as (Q1 & Q2 & Q3 & Q4 & Q5). intros k x h K. unfold addresses_in. cbn [snd]. rewrite Q4, Q5. destruct (a_ttl x =? 0) eqn:E; [reflexivity|]. cbn [negb andb]. destruct (bytes_eqb _ _); [|reflexivity]. destruct K as [K|[K1 K2]]; [lia|].
  replace (a_type x =? 1) with false by lia. replace (a_type x =? 28) with false by lia. reflexivity.
Qed.

Lemma srv_fits : forall T k x n i, a_ttl x <> 0 -> a_type x = 33 -> a_rdname x = Some n -> n <> [] -> zlen n <= 255 -> i_name i = a_name x -> fits T i ->
  fits (T ++ [(k, x)]) (match i_host i with [] => mkinstance (i_name i) (cut 256 n) (a_port x) (i_product i) (i_version i) | _ => i end).
Proof.
  destruct types as (Q1 & Q2 & Q3 & Q4 & Q5). intros T k x n i T0 Ty Rn Nn Ln Ni ((o1 & F1 & E1) & (o2 & F2 & E2) & (o3 & F3 & E3)).
  assert (D : forall key v, ~ described (i_name i) key (k, x) v) by (intros key v (_ & K & _); cbn [snd] in K; rewrite Q3, Ty in K; discriminate K).
  destruct (i_host i) as [|ch h] eqn:Eh.
  - destruct o1 as [p|].
    { exfalso. destruct F1 as (T1 & c & T2 & _ & (_ & _ & _ & _ & Np & _) & _). apply Np. rewrite <- E1. reflexivity. }
    split; [|split]; cbn [i_name i_host i_port i_product i_version].
    + exists (Some (n, a_port x)). split; [|rewrite cut_id by lia; reflexivity]. apply first_new; [exact F1|]. unfold located, there. cbn [fst snd]. rewrite Q2. auto 10.
    + exists o2. split; [|exact E2]. apply first_snoc; [exact F2|]. right. intros b. apply D.
    + exists o3. split; [|exact E3]. apply first_snoc; [exact F3|]. right. intros b. apply D.
  - split; [|split].
    + exists o1. split; [|rewrite Eh; exact E1]. apply first_snoc; [exact F1|]. left. intros ->. discriminate E1.
    + exists o2. split; [|exact E2]. apply first_snoc; [exact F2|]. right. intros b. apply D.
    + exists o3. split; [|exact E3]. apply first_snoc; [exact F3|]. right. intros b. apply D.
Qed.

Lemma attr_fits : forall T k x n key o old new data strs t, a_ttl x <> 0 -> a_type x = 16 -> a_rdata x = Some data -> data <> [] -> n = a_name x ->
  strings_of (uchars data) strs -> (forall k, get_opt t k = attrs strs k) ->
  first_of (described n key) T o -> old = match o with Some v => cut 64 v | None => [] end ->
  new = match get_opt t key, old with Some v, [] => cut 64 v | _, p => p end ->
  exists o', first_of (described n key) (T ++ [(k, x)]) o' /\ new = match o' with Some v => cut 64 v | None => [] end.
Proof.
  destruct types as (Q1 & Q2 & Q3 & Q4 & Q5). intros T k x n key o old new data strs t T0 Ty Rd Nd -> St G F Eo En.
  destruct o as [v|].
  - assert (Nv : cut 64 v <> []) by (destruct F as (T1 & c & T2 & _ & (_ & _ & _ & Nv & _) & _); apply cut_some; [exact Nv|lia]).
    exists (Some v). split; [apply first_snoc; [exact F|left; discriminate]|]. subst old. destruct (cut 64 v) as [|c l]; [congruence|]. destruct (get_opt t key); exact En.
  - subst old. destruct (get_opt t key) as [v|] eqn:Eg.
    + destruct v as [|c v].
      * exists None. split; [|exact En]. apply first_snoc; [exact F|]. right. intros b (_ & _ & _ & Nb & data' & strs' & Rd' & _ & St' & At). cbn [snd] in Rd'. rewrite Rd in Rd'. injection Rd' as <-.
        rewrite (strings_fun _ _ St' _ St), <- G, Eg in At. injection At as <-. congruence.
      * exists (Some (c :: v)). split; [|exact En]. apply first_new; [exact F|]. unfold described, there. cbn [snd]. rewrite Q3. split; [exact T0|]. split; [exact Ty|]. split; [reflexivity|]. split; [discriminate|].
        exists data, strs. split; [exact Rd|]. split; [exact Nd|]. split; [exact St|]. rewrite <- G. exact Eg.
    + exists None. split; [|exact En]. apply first_snoc; [exact F|]. right. intros b (_ & _ & _ & Nb & data' & strs' & Rd' & _ & St' & At). cbn [snd] in Rd'. rewrite Rd in Rd'. injection Rd' as <-.
      rewrite (strings_fun _ _ St' _ St), <- G, Eg in At. discriminate At.
Qed.

Lemma ans_dev_inv : forall T s k x s' l rm, short (k, x) -> ans_dev ntop s k x = Ok (s', l, rm) -> dev_inv ntop T s -> inst_inv T s -> dev_inv ntop (T ++ [(k, x)]) s' /\ inst_inv (T ++ [(k, x)]) s'.
Proof.
  destruct types as (Q1 & Q2 & Q3 & Q4 & Q5). intros T s k x s' l rm [S1 S2] E D J. cbn [snd] in S1, S2.
  unfold ans_dev in E. rewrite Q1, Q2, Q3, Q4, Q5 in E.
  destruct (a_ttl x =? 0) eqn:T0.
  { injection E as <- _ _. split; [apply (dev_same ntop T s _ s D eq_refl); intros h; apply no_addresses; left; lia|apply (inst_same T s _ s J eq_refl); apply none_tells; left; lia]. }
  destruct (a_type x =? 12) eqn:C1.
  { assert (Na : forall h, addresses_in ntop h (k, x) = []) by (intros h; apply no_addresses; right; lia).
    assert (Nt : (forall n, a_rdname x = Some n -> n = []) \/ k = PLAIN -> forall n, ~ tells_of n (k, x)).
    { intros K n (_ & [(_ & K1 & K2 & K3)|[(K1 & _)|(K1 & _)]]); cbn [fst snd] in *; [|lia|lia]. destruct K as [K|K]; [apply K3; apply K; exact K2|contradiction]. }
    destruct (a_rdname x) as [n|] eqn:Er; [destruct n as [|c n]|].
    - injection E as <- _ _. split; [apply (dev_same ntop T s _ s D eq_refl Na)|apply (inst_same T s _ s J eq_refl); apply Nt; left; congruence].
    - destruct (Nat.eqb_spec k PLAIN) as [Ek|Ek].
      + injection E as <- _ _. split; [apply (dev_same ntop T s _ s D eq_refl Na)|apply (inst_same T s _ s J eq_refl); apply Nt; auto].
      + injection E as <- _ _. split; [apply (dev_same ntop T s _ _ D eq_refl Na)|].
        eapply (inst_touched T s _ (c :: n) (fun i => i) _ J); [cbn [instances]; apply create_id; apply S2; reflexivity|intros i; reflexivity| |].
        * intros m. unfold tells_of, there. cbn [fst snd]. rewrite Er. split.
          -- intros (_ & [(_ & _ & K & _)|[(K & _)|(K & _)]]); [congruence|lia|lia].
          -- intros ->. split; [lia|]. left. split; [lia|]. split; [exact Ek|]. split; [reflexivity|discriminate].
        * intros i Ni ((o1 & F1 & E1) & (o2 & F2 & E2) & (o3 & F3 & E3)).
          assert (L : forall b, ~ located (i_name i) (k, x) b) by (intros b (_ & K & _); cbn [snd] in K; lia).
          assert (De : forall key b, ~ described (i_name i) key (k, x) b) by (intros key b (_ & K & _); cbn [snd] in K; lia).
          split; [exists o1|split; [exists o2|exists o3]]; (split; [apply first_snoc; [assumption|right; intros b; apply L || apply De]|assumption]).
    - injection E as <- _ _. split; [apply (dev_same ntop T s _ s D eq_refl Na)|apply (inst_same T s _ s J eq_refl); apply Nt; left; congruence]. }
  destruct (a_type x =? 33) eqn:C2.
  { assert (Na : forall h, addresses_in ntop h (k, x) = []) by (intros h; apply no_addresses; right; lia).
    assert (Nt : (forall n, a_rdname x = Some n -> n = []) -> forall n, ~ tells_of n (k, x)).
    { intros K n (_ & [(K1 & _)|[(_ & _ & m & K2 & K3)|(K1 & _)]]); cbn [fst snd] in *; [lia| |lia]. apply K3. apply K. exact K2. }
    destruct (a_rdname x) as [n|] eqn:Er; [destruct n as [|c n]|].
    - injection E as <- _ _. split; [apply (dev_same ntop T s _ s D eq_refl Na)|apply (inst_same T s _ s J eq_refl); apply Nt; congruence].
    - set (f := fun i => match i_host i with [] => mkinstance (i_name i) (cut 256 (c :: n)) (a_port x) (i_product i) (i_version i) | _ => i end).
      assert (E' : devices s' = devices s /\ instances s' = touch i_name no_instance new_instance (instances s) (a_name x) f).
      { rewrite <- create_touch by lia. destruct (find_or_create_instance (instances s) (a_name x)) as [l' j]. cbv zeta in E. unfold f.
        destruct (i_host (nth j l' no_instance)) eqn:Eh; injection E as <- _ _; cbn [devices instances]; [auto|]. rewrite upd_nth. auto. }
      destruct E' as [E1 E2]. split; [apply (dev_same ntop T s _ _ D E1 Na)|]. eapply (inst_touched T s _ (a_name x) f _ J E2).
      + intros i. unfold f. destruct (i_host i); reflexivity.
      + intros m. unfold tells_of, there. cbn [fst snd]. split.
        * intros (_ & [(K & _)|[(_ & K & _)|(K & _)]]); [lia|congruence|lia].
        * intros ->. split; [lia|]. right. left. split; [lia|]. split; [reflexivity|]. exists (c :: n). split; [exact Er|discriminate].
      + intros i Ni F. apply srv_fits; try assumption; try lia; [discriminate|]. apply S2. reflexivity.
    - injection E as <- _ _. split; [apply (dev_same ntop T s _ s D eq_refl Na)|apply (inst_same T s _ s J eq_refl); apply Nt; congruence]. }
  destruct (a_type x =? 16) eqn:C3.
  { assert (Na : forall h, addresses_in ntop h (k, x) = []) by (intros h; apply no_addresses; right; lia).
    assert (Nt : (forall n, a_rdata x = Some n -> n = []) -> forall n, ~ tells_of n (k, x)).
    { intros K n (_ & [(K1 & _)|[(K1 & _)|(_ & _ & m & K2 & K3)]]); cbn [fst snd] in *; [lia|lia|]. apply K3. apply K. exact K2. }
    destruct (a_rdata x) as [n|] eqn:Er; [destruct n as [|c n]|].
    - injection E as <- _ _. split; [apply (dev_same ntop T s _ s D eq_refl Na)|apply (inst_same T s _ s J eq_refl); apply Nt; congruence].
    - destruct (txt_ok (c :: n)) as (strs & t & St & Et & G). rewrite Et in E. cbn [bind] in E.
      set (f := fun i => mkinstance (i_name i) (i_host i) (i_port i) (match get_opt t S_PRODUCT, i_product i with Some v, [] => cut 64 v | _, p => p end) (match get_opt t S_VERSION, i_version i with Some v, [] => cut 64 v | _, p => p end)).
      assert (E' : devices s' = devices s /\ instances s' = touch i_name no_instance new_instance (instances s) (a_name x) f).
      { rewrite <- create_touch by lia. destruct (find_or_create_instance (instances s) (a_name x)) as [l' j]. cbv zeta in E. unfold f. injection E as <- _ _. cbn [devices instances]. auto. }
      destruct E' as [E1 E2]. split; [apply (dev_same ntop T s _ _ D E1 Na)|]. eapply (inst_touched T s _ (a_name x) f _ J E2).
      + intros i. reflexivity.
      + intros m. unfold tells_of, there. cbn [fst snd]. split.
        * intros (_ & [(K & _)|[(K & _)|(_ & K & _)]]); [lia|lia|congruence].
        * intros ->. split; [lia|]. right. right. split; [lia|]. split; [reflexivity|]. exists (c :: n). split; [exact Er|discriminate].
      + intros i Ni ((o1 & F1 & G1) & (o2 & F2 & G2) & (o3 & F3 & G3)). split; [|split]; cbn [f i_name i_host i_port i_product i_version].
        * exists o1. split; [|exact G1]. apply first_snoc; [exact F1|]. right. intros b (_ & K & _). cbn [snd] in K. lia.
        * eapply (attr_fits T k x (i_name i) S_PRODUCT o2 (i_product i)); try eassumption; try lia; [discriminate|]. destruct (get_opt t S_PRODUCT); [destruct (i_product i)|]; reflexivity.
        * eapply (attr_fits T k x (i_name i) S_VERSION o3 (i_version i)); try eassumption; try lia; [discriminate|]. destruct (get_opt t S_VERSION); [destruct (i_version i)|]; reflexivity.
    - injection E as <- _ _. split; [apply (dev_same ntop T s _ s D eq_refl Na)|apply (inst_same T s _ s J eq_refl); apply Nt; congruence]. }
  assert (Nt : forall n, ~ tells_of n (k, x)) by (apply none_tells; right; lia).
  destruct (a_type x =? 1) eqn:C4.
  { rewrite (add_device_ok ntop) in E by (try apply ntop_short; exact S1). injection E as <- _ _. split; [|apply (inst_same T s _ _ J eq_refl Nt)].
    eapply (dev_added ntop ntop_short T s _ (a_name x)); [exact D|reflexivity|]. intros h. unfold addresses_in. cbn [snd]. rewrite Q4, T0, C4. cbn [negb andb]. destruct (bytes_eqb _ _); reflexivity. }
  destruct (a_type x =? 28) eqn:C5.
  { rewrite (add_device_ok ntop) in E by (try apply ntop_short; exact S1). injection E as <- _ _. split; [|apply (inst_same T s _ _ J eq_refl Nt)].
    eapply (dev_added ntop ntop_short T s _ (a_name x)); [exact D|reflexivity|]. intros h. unfold addresses_in. cbn [snd]. rewrite Q4, Q5, T0, C4, C5. cbn [negb andb]. destruct (bytes_eqb _ _); reflexivity. }
  injection E as <- _ _. split; [apply (dev_same ntop T s _ s D eq_refl); intros h; apply no_addresses; right; lia|apply (inst_same T s _ s J eq_refl Nt)].
Qed.

Lemma replay_inv : forall T s, Forall short T -> replayed (ans_dev ntop) no_tables T s -> dev_inv ntop T s /\ inst_inv T s.
Proof.
  intros T. induction T as [|[k x] T IH] using rev_ind; intros s F K.
  - inversion K; subst. split.
    + split; [constructor|]. split; [intros h; cbn; tauto|intros v []].
    + split; [constructor|]. split; [intros n; cbn; split; [tauto|intros (c & [] & _)]|intros i []].
  - apply replayed_snoc in K as (s1 & l & rm & K & E). apply Forall_app in F as [F1 F2]. inversion F2; subst. destruct (IH s1 F1 K) as [D J]. eapply ans_dev_inv; eassumption.
Qed.
End Calls.
