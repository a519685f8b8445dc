(* Supporting proofs for PropMain.v. *)
From Coq Require Import Permutation.
From Verif Require Import Base Lemmas Iface Main SpecMain.

Lemma opened_snoc : forall tr e, opened (tr ++ [e]) = note (opened tr) e.
Proof. intros tr e. unfold opened. rewrite fold_left_app. reflexivity. Qed.

Lemma snoc_cases : forall (A : Type) (l : list A) x l1 y l2, l ++ [x] = l1 ++ y :: l2 -> (l2 = [] /\ y = x /\ l1 = l) \/ exists l3, l2 = l3 ++ [x] /\ l = l1 ++ y :: l3.
Proof.
  intros A l x l1 y l2 E. destruct l2 as [|z l3 _] using rev_ind.
  - left. apply app_inj_tail in E as [-> ->]. auto.
  - right. exists l3. rewrite app_comm_cons, app_assoc in E. apply app_inj_tail in E as [-> ->]. auto.
Qed.

Definition wide (ttl : Z) : Z := if ttl =? 0 then 1 else ttl.
(* A request that may be made now *)
Definition proper (ttl : Z) (pre : trace) (c : request) : Prop :=
  (forall fd, In fd (uses c) -> In fd (opened pre)) /\ forall fd, c = AIo fd -> exists family name, prepared pre fd family name (wide ttl).
Definition all_proper (ttl : Z) (tr : trace) : Prop := forall pre c r post, tr = pre ++ (c, r) :: post -> proper ttl pre c.

Lemma proper_nil : forall ttl, all_proper ttl [].
Proof. intros ttl pre c r post E. destruct pre; discriminate. Qed.
Lemma proper_snoc : forall ttl tr c r, all_proper ttl tr -> proper ttl tr c -> all_proper ttl (tr ++ [(c, r)]).
Proof. intros ttl tr c r A P pre c' r' post E. apply snoc_cases in E as [(-> & E & ->)|(l & -> & ->)]; [injection E as -> ->; exact P|apply (A pre c' r' l); reflexivity]. Qed.

Lemma prepared_more : forall tr fd f n t c r, prepared tr fd f n t -> c <> AClose fd -> prepared (tr ++ [(c, r)]) fd f n t.
Proof.
  intros tr fd f n t c r (p1 & p2 & -> & A & B & C & D) N. exists p1, (p2 ++ [(c, r)]). split; [rewrite <- app_assoc; reflexivity|].
  split; [intros x I; apply in_app_or in I as [I|[I|[]]]; [exact (A x I)|congruence]|].
  split; [intros o I; destruct (B o I) as (x & Ix); exists x; apply in_or_app; auto|]. split; [apply in_or_app; auto|]. intros E. destruct (D E) as (x & Ix). exists x. apply in_or_app. auto.
Qed.

(* ---- Options ---- *)
Lemma setopts_spec : forall k l tr fd, exists opts, setopts k tr fd l = tr ++ opts /\ (forall c r, In (c, r) opts -> exists o, c = AOption fd o) /\ (forall o, In o l -> exists r, In (AOption fd o, r) opts).
Proof.
  intros k l. induction l as [|o l IH]; intros tr fd; cbn [setopts]; [exists []; rewrite app_nil_r; split; [reflexivity|]; split; [intros c r []|intros o []]|].
  destruct (IH (tr ++ [(AOption fd o, k tr (AOption fd o))]) fd) as (opts & E & A & B). exists ((AOption fd o, k tr (AOption fd o)) :: opts). rewrite E, <- app_assoc. split; [reflexivity|]. split.
  - intros c r [I|I]; [injection I as <- _; eauto|eauto].
  - intros o' [<-|I]; [eexists; left; reflexivity|]. destruct (B o' I) as (r & Ir). exists r. right. exact Ir.
Qed.
Lemma opts_opened : forall opts tr fd, (forall c r, In (c, r) opts -> exists o, c = AOption fd o) -> opened (tr ++ opts) = opened tr.
Proof.
  intros opts. induction opts as [|[c r] opts IH]; intros tr fd A; [rewrite app_nil_r; reflexivity|]. replace (tr ++ (c, r) :: opts) with ((tr ++ [(c, r)]) ++ opts) by (rewrite <- app_assoc; reflexivity).
  rewrite (IH _ fd) by (intros c' r' I; apply (A c' r'); right; exact I). rewrite opened_snoc. destruct (A c r (or_introl eq_refl)) as (o & ->). reflexivity.
Qed.
Lemma opts_proper : forall ttl opts tr fd, (forall c r, In (c, r) opts -> exists o, c = AOption fd o) -> In fd (opened tr) -> all_proper ttl tr -> all_proper ttl (tr ++ opts).
Proof.
  intros ttl opts. induction opts as [|[c r] opts IH]; intros tr fd A O P; [rewrite app_nil_r; exact P|]. replace (tr ++ (c, r) :: opts) with ((tr ++ [(c, r)]) ++ opts) by (rewrite <- app_assoc; reflexivity).
  destruct (A c r (or_introl eq_refl)) as (o & ->). apply (IH _ fd); [intros c' r' I; apply (A c' r'); right; exact I|rewrite opened_snoc; exact O|].
  apply proper_snoc; [exact P|]. split; [intros x [<-|[]]; exact O|discriminate].
Qed.
Lemma opts_prepared : forall opts tr fd x f n t, (forall c r, In (c, r) opts -> exists o, c = AOption fd o) -> prepared tr x f n t -> prepared (tr ++ opts) x f n t.
Proof.
  intros opts. induction opts as [|[c r] opts IH]; intros tr fd x f n t A P; [rewrite app_nil_r; exact P|]. replace (tr ++ (c, r) :: opts) with ((tr ++ [(c, r)]) ++ opts) by (rewrite <- app_assoc; reflexivity).
  destruct (A c r (or_introl eq_refl)) as (o & ->). apply (IH _ fd); [intros c' r' I; apply (A c' r'); right; exact I|]. apply prepared_more; [exact P|discriminate].
Qed.
Lemma filter_out : forall l (x : Z), ~ In x l -> filter (fun y => negb (y =? x)) l = l.
Proof. induction l as [|y l IH]; intros x N; [reflexivity|]. cbn [filter]. destruct (Z.eqb_spec y x) as [->|D]; [destruct N; left; reflexivity|]. cbn [negb]. f_equal. apply IH. intros I. apply N. right. exact I. Qed.

(* ---- What one more request does ---- *)
Definition stays (tr tr' : trace) : Prop := forall fd f n t, In fd (opened tr) -> In fd (opened tr') -> prepared tr fd f n t -> prepared tr' fd f n t.

Lemma socket_spec : forall k tr name ttl family tr' sd, honest k -> (family = 2 \/ family = 10) -> all_proper ttl tr -> NoDup (opened tr) -> multicast_socket k tr name ttl family = (tr', sd) ->
  all_proper ttl tr' /\ NoDup (opened tr') /\ (forall fd f n t, In fd (opened tr) -> prepared tr fd f n t -> prepared tr' fd f n t) /\
  (0 <= sd /\ opened tr' = sd :: opened tr /\ prepared tr' sd family name (wide ttl) \/ sd < 0 /\ opened tr' = opened tr /\ refused tr' family).
Proof.
  intros k tr name ttl family tr' sd Hk Hf P N E. unfold multicast_socket in E. fold (wide ttl) in E. set (fd := k tr (ASocket family)) in *. set (tr1 := tr ++ [(ASocket family, fd)]) in *.
  assert (P1 : all_proper ttl tr1) by (apply proper_snoc; [exact P|split; [intros x []|discriminate]]).
  destruct (fd <? 0) eqn:Ef.
  { injection E as <- <-. assert (O1 : opened tr1 = opened tr) by (unfold tr1; rewrite opened_snoc; cbn [note]; replace (0 <=? fd) with false by lia; reflexivity).
    split; [exact P1|]. split; [rewrite O1; exact N|]. split; [intros x f n t _ Px; apply prepared_more; [exact Px|discriminate]|]. right. split; [lia|]. split; [exact O1|]. exists tr, fd, []. split; [reflexivity|]. left. split; [lia|reflexivity]. }
  assert (O1 : opened tr1 = fd :: opened tr) by (unfold tr1; rewrite opened_snoc; cbn [note]; replace (0 <=? fd) with true by lia; reflexivity).
  assert (Nf : ~ In fd (opened tr)) by (apply Hk; fold fd; lia).
  destruct (setopts_spec k (if family =? FAM6 then options6 (wide ttl) name else options4 (wide ttl) name) tr1 fd) as (opts & Eo & A & B). rewrite Eo in E. set (tr2 := tr1 ++ opts) in *.
  assert (O2 : opened tr2 = fd :: opened tr) by (unfold tr2; rewrite (opts_opened opts tr1 fd A); exact O1).
  assert (P2 : all_proper ttl tr2) by (apply (opts_proper ttl opts tr1 fd A); [rewrite O1; left; reflexivity|exact P1]).
  set (r := k tr2 (ABind fd PORT)) in *. set (tr3 := tr2 ++ [(ABind fd PORT, r)]) in *.
  assert (O3 : opened tr3 = fd :: opened tr) by (unfold tr3; rewrite opened_snoc; exact O2).
  assert (P3 : all_proper ttl tr3) by (apply proper_snoc; [exact P2|split; [intros x [<-|[]]; rewrite O2; left; reflexivity|discriminate]]).
  assert (S3 : forall x f n t, In x (opened tr) -> prepared tr x f n t -> prepared tr3 x f n t).
  { intros x f n t Ix Px. apply prepared_more; [|discriminate]. apply (opts_prepared opts tr1 fd); [exact A|]. apply prepared_more; [exact Px|discriminate]. }
  destruct (negb (r =? 0)) eqn:Er; injection E as <- <-.
  - set (tr4 := tr3 ++ [(AClose fd, k tr3 (AClose fd))]).
    assert (O4 : opened tr4 = opened tr) by (unfold tr4; rewrite opened_snoc, O3; cbn [note filter]; rewrite Z.eqb_refl; cbn [negb]; apply filter_out; exact Nf).
    split; [apply proper_snoc; [exact P3|split; [intros x [<-|[]]; rewrite O3; left; reflexivity|discriminate]]|]. split; [rewrite O4; exact N|].
    split; [intros x f n t Ix Px; apply prepared_more; [apply S3; assumption|intros K; injection K as K; apply Nf; rewrite K; exact Ix]|]. right. split; [lia|]. split; [exact O4|].
    exists tr, fd, (opts ++ [(ABind fd 5353, r); (AClose fd, k tr3 (AClose fd))]). split; [unfold tr4, tr3, tr2, tr1; rewrite <- !app_assoc; reflexivity|]. right. exists opts, r, (k tr3 (AClose fd)). split; [reflexivity|]. split; [lia|exact A].
  - split; [exact P3|]. split; [rewrite O3; constructor; assumption|]. split; [exact S3|]. left. split; [lia|]. split; [exact O3|].
    exists tr, (opts ++ [(ABind fd PORT, r)]). split; [unfold tr3, tr2, tr1; rewrite <- !app_assoc; reflexivity|].
    assert (C : forall o, (exists x, In (AOption fd o, x) opts) -> exists x, In (AOption fd o, x) (opts ++ [(ABind fd PORT, r)])) by (intros o (x & I); exists x; apply in_or_app; auto).
    split; [intros x I; apply in_app_or in I as [I|[I|[]]]; [destruct (A _ _ I); discriminate|discriminate]|].
    split; [|split].
    + intros o I. apply C. apply B. unfold FAM6, group in *. destruct Hf as [-> | ->]; cbn [Z.eqb Pos.eqb] in *; unfold options4, options6, GROUP4, GROUP6; cbn [In] in *; intuition auto.
    + apply in_or_app. right. left. f_equal. lia.
    + intros ->. apply C, B. unfold options6. cbn. auto.
Qed.

(* ---- The state of the program ---- *)
Definition sound (ttl : Z) (tr : trace) : Prop := all_proper ttl tr /\ NoDup (opened tr).
Definition keeps (rest : list Z) (tr tr' : trace) : Prop := forall fd f n t, In fd rest -> prepared tr fd f n t -> prepared tr' fd f n t.
Definition fd_of (x : Z) : list Z := if 0 <=? x then [x] else [].
Definition fds (i : iface) : list Z := fd_of (i_sd i) ++ fd_of (i_sd6 i).
Definition good (i : iface) : Prop := (i_mdns i = true <-> 0 <= i_sd i) /\ (0 <= i_sd6 i -> i_mdns6 i = true).
Definition ready (ttl : Z) (tr : trace) (i : iface) : Prop := (0 <= i_sd i -> prepared tr (i_sd i) 2 (i_name i) (wide ttl)) /\ (0 <= i_sd6 i -> prepared tr (i_sd6 i) 10 (i_name i) (wide ttl)).
Definition all_fds (l : list iface) : list Z := concat (map fds l).
Definition opt_fds (o : option iface) : list Z := match o with Some i => fds i | None => [] end.
(* Only an fd_set too small for a descriptor is to be feared *)
Definition ended (ttl : Z) (tr : trace) (c : crash) : Prop := sound ttl tr /\ (c = FdSet -> exists fd, In fd (opened tr) /\ 1024 <= fd).
Definition opt_all (P : iface -> Prop) (o : option iface) : Prop := match o with Some i => P i | None => True end.

Lemma keeps_refl : forall rest tr, keeps rest tr tr.
Proof. intros rest tr fd f n t _ P. exact P. Qed.
Lemma keeps_trans : forall rest a b c, keeps rest a b -> keeps rest b c -> keeps rest a c.
Proof. intros rest a b c A B fd f n t I P. apply (B fd f n t I), (A fd f n t I), P. Qed.
Lemma keeps_less : forall a b tr tr', (forall x, In x a -> In x b) -> keeps b tr tr' -> keeps a tr tr'.
Proof. intros a b tr tr' S K fd f n t I P. apply (K fd f n t (S fd I) P). Qed.
Lemma keeps_one : forall rest tr c r, (forall fd, In fd rest -> c <> AClose fd) -> keeps rest tr (tr ++ [(c, r)]).
Proof. intros rest tr c r N fd f n t I P. apply prepared_more; [exact P|apply N; exact I]. Qed.

Lemma nodup_mid : forall (l : list Z) x rest, NoDup l -> Permutation l (x :: rest) -> ~ In x rest /\ NoDup rest.
Proof. intros l x rest N P. apply (Permutation_NoDup P) in N. inversion N. auto. Qed.
Lemma filter_perm : forall (l : list Z) x rest, NoDup l -> Permutation l (x :: rest) -> Permutation (filter (fun y => negb (y =? x)) l) rest.
Proof.
  intros l x rest N P. destruct (nodup_mid l x rest N P) as [Nx Nr]. apply NoDup_Permutation; [apply NoDup_filter; exact N|exact Nr|]. intros y. rewrite filter_In. split.
  - intros [I D]. apply (Permutation_in _ P) in I as [->|I]; [rewrite Z.eqb_refl in D; discriminate|exact I].
  - intros I. split; [apply (Permutation_in _ (Permutation_sym P)); right; exact I|]. apply negb_true_iff, Z.eqb_neq. intros ->. exact (Nx I).
Qed.

(* Using and closing a descriptor *)
Lemma io_spec : forall ttl tr fd r f name rest, sound ttl tr -> Permutation (opened tr) (fd :: rest) -> prepared tr fd f name (wide ttl) ->
  sound ttl (tr ++ [(AIo fd, r)]) /\ opened (tr ++ [(AIo fd, r)]) = opened tr /\ keeps (fd :: rest) tr (tr ++ [(AIo fd, r)]).
Proof.
  intros ttl tr fd r f name rest [P N] O C. assert (E : opened (tr ++ [(AIo fd, r)]) = opened tr) by (rewrite opened_snoc; reflexivity). split; [split|split; [exact E|]].
  - apply proper_snoc; [exact P|]. split; [intros x [<-|[]]; apply (Permutation_in _ (Permutation_sym O)); left; reflexivity|]. intros x K. injection K as <-. eauto.
  - rewrite E. exact N.
  - apply keeps_one. discriminate.
Qed.
Lemma close_spec : forall ttl tr fd r rest, sound ttl tr -> Permutation (opened tr) (fd :: rest) ->
  sound ttl (tr ++ [(AClose fd, r)]) /\ Permutation (opened (tr ++ [(AClose fd, r)])) rest /\ keeps rest tr (tr ++ [(AClose fd, r)]).
Proof.
  intros ttl tr fd r rest [P N] O. assert (E : opened (tr ++ [(AClose fd, r)]) = filter (fun y => negb (y =? fd)) (opened tr)) by (rewrite opened_snoc; reflexivity). split; [split|split].
  - apply proper_snoc; [exact P|]. split; [intros x [<-|[]]; apply (Permutation_in _ (Permutation_sym O)); left; reflexivity|discriminate].
  - rewrite E. apply NoDup_filter. exact N.
  - rewrite E. apply filter_perm; assumption.
  - destruct (nodup_mid _ _ _ N O) as [Nx _]. apply keeps_one. intros x I K. injection K as K. apply Nx. rewrite K. exact I.
Qed.

(* mdnsd_step and close for one of the sockets *)
Lemma finish_spec : forall ttl k tr sd f name rest, sound ttl tr -> Permutation (opened tr) (fd_of sd ++ rest) -> (0 <= sd -> prepared tr sd f name (wide ttl)) ->
  let tr' := close_if k (io_if k tr sd) sd in sound ttl tr' /\ Permutation (opened tr') rest /\ keeps rest tr tr'.
Proof.
  intros ttl k tr sd f name rest S O C. cbv zeta. unfold close_if, io_if, fd_of in *. destruct (0 <=? sd) eqn:E; [|split; [exact S|split; [exact O|apply keeps_refl]]]. cbn [app] in O.
  destruct (io_spec ttl tr sd (k tr (AIo sd)) f name rest S O (C ltac:(lia))) as (S1 & E1 & K1). set (tr1 := tr ++ [(AIo sd, k tr (AIo sd))]) in *.
  destruct (close_spec ttl tr1 sd (k tr1 (AClose sd)) rest S1 ltac:(rewrite E1; exact O)) as (S2 & P2 & K2). split; [exact S2|]. split; [exact P2|].
  apply (keeps_trans _ _ tr1); [|exact K2]. apply (keeps_less _ (sd :: rest)); [intros x I; right; exact I|exact K1].
Qed.

Lemma free_spec : forall ttl k tr i rest, sound ttl tr -> Permutation (opened tr) (fds i ++ rest) -> good i -> ready ttl tr i ->
  match free_iface k tr i with Go tr' _ => sound ttl tr' /\ Permutation (opened tr') rest /\ keeps rest tr tr' | Quit _ _ => False | Crash tr' c => tr' = tr /\ i_mdns i = false /\ c = NullContext end.
Proof.
  intros ttl k tr i rest S O [G1 G2] [R1 R2]. unfold free_iface. destruct (i_mdns i) eqn:M; cbn [negb]; [|auto]. unfold fds in O. rewrite <- app_assoc in O.
  destruct (finish_spec ttl k tr (i_sd i) 2 (i_name i) _ S O R1) as (S1 & P1 & K1). set (tr1 := close_if k (io_if k tr (i_sd i)) (i_sd i)) in *.
  destruct (i_mdns6 i) eqn:M6.
  - destruct (finish_spec ttl k tr1 (i_sd6 i) 10 (i_name i) rest S1 P1) as (S2 & P2 & K2).
    { intros L. apply K1; [|apply R2; exact L]. apply in_or_app. left. unfold fd_of. replace (0 <=? i_sd6 i) with true by lia. left. reflexivity. }
    split; [exact S2|]. split; [exact P2|]. apply (keeps_trans _ _ tr1); [|exact K2]. apply (keeps_less _ (fd_of (i_sd6 i) ++ rest)); [intros x I; apply in_or_app; auto|exact K1].
  - assert (L : ~ 0 <= i_sd6 i) by (intros L; specialize (G2 L); congruence). unfold fd_of in P1, K1. replace (0 <=? i_sd6 i) with false in P1, K1 by lia. auto.
Qed.

Lemma ready_kept : forall ttl tr tr' i rest, keeps rest tr tr' -> (forall x, In x (fds i) -> In x rest) -> ready ttl tr i -> ready ttl tr' i.
Proof.
  intros ttl tr tr' i rest K S [R1 R2]. unfold fds, fd_of in S. split; intros L.
  - apply K; [|exact (R1 L)]. apply S. replace (0 <=? i_sd i) with true by lia. left. reflexivity.
  - apply K; [|exact (R2 L)]. apply S. replace (0 <=? i_sd6 i) with true by lia. apply in_or_app. right. left. reflexivity.
Qed.

Definition setup_ok (ttl : Z) (tr : trace) (rest : list Z) (f : fate (option iface)) : Prop :=
  match f with
  | Go tr' o => sound ttl tr' /\ Permutation (opened tr') (opt_fds o ++ rest) /\ keeps rest tr tr' /\ opt_all good o /\ opt_all (ready ttl tr') o
  | Quit tr' c => sound ttl tr' /\ c = 1 /\ refused tr' 2
  | Crash tr' c => ended ttl tr' c
  end.

Lemma setup_spec : forall ttl k tr i rest, honest k -> sound ttl tr -> Permutation (opened tr) (fds i ++ rest) -> good i -> ready ttl tr i -> setup_ok ttl tr rest (setup_iface k tr ttl i).
Proof.
  intros ttl k tr i rest Hk S O G Rd. unfold setup_iface. destruct (i_changed i); cbn [negb]; [|cbn [setup_ok opt_fds opt_all]; auto 6 using keeps_refl].
  destruct (i_unused i) eqn:Un.
  { pose proof (free_spec ttl k tr i rest S O G Rd) as F. destruct (free_iface k tr i) as [tr' []|tr' c|tr' c]; cbn [next setup_ok opt_fds opt_all app]; [tauto|contradiction|]. destruct F as (-> & _ & ->). split; [exact S|discriminate]. }
  destruct G as [G1 G2], Rd as [R1 R2]. destruct S as [P N].
  assert (A4 : exists tr1 sd, (if i_sd i <? 0 then multicast_socket k tr (i_name i) ttl FAM4 else (tr, i_sd i)) = (tr1, sd) /\ sound ttl tr1 /\
    (0 <= sd /\ Permutation (opened tr1) (sd :: fd_of (i_sd6 i) ++ rest) /\ keeps (fd_of (i_sd6 i) ++ rest) tr tr1 /\ prepared tr1 sd 2 (i_name i) (wide ttl) \/ sd < 0 /\ refused tr1 2)).
  { unfold fds, fd_of in O. destruct (i_sd i <? 0) eqn:E.
    - destruct (multicast_socket k tr (i_name i) ttl FAM4) as [tr1 sd] eqn:Em. destruct (socket_spec k tr (i_name i) ttl FAM4 tr1 sd Hk ltac:(left; reflexivity) P N Em) as (P1 & N1 & K1 & C). exists tr1, sd. split; [reflexivity|]. split; [split; assumption|].
      replace (0 <=? i_sd i) with false in O by lia. cbn [app] in O. destruct C as [(L & O1 & Pr)|(L & _ & Rf)]; [left|right; auto]. split; [exact L|]. split; [rewrite O1; apply perm_skip; exact O|]. split; [|exact Pr].
      intros x f n t Ix Px. apply K1; [apply (Permutation_in _ (Permutation_sym O)); exact Ix|exact Px].
    - exists tr, (i_sd i). split; [reflexivity|]. split; [split; assumption|]. left. replace (0 <=? i_sd i) with true in O by lia. cbn [app] in O. split; [lia|]. split; [exact O|]. split; [apply keeps_refl|apply R1; lia]. }
  destruct A4 as (tr1 & sd & -> & [P1 N1] & C1). destruct C1 as [(L1 & O1 & K1 & Q1)|(L1 & Rf)]; [replace (sd <? 0) with false by lia|replace (sd <? 0) with true by lia; cbn [setup_ok]; split; [split; assumption|auto]].
  assert (A6 : exists tr2 sd6, (if i_sd6 i <? 0 then multicast_socket k tr1 (i_name i) ttl FAM6 else (tr1, i_sd6 i)) = (tr2, sd6) /\ sound ttl tr2 /\
    Permutation (opened tr2) (sd :: fd_of sd6 ++ rest) /\ keeps (sd :: rest) tr1 tr2 /\ (0 <= sd6 -> prepared tr2 sd6 10 (i_name i) (wide ttl))).
  { unfold fd_of in *. destruct (i_sd6 i <? 0) eqn:E.
    - destruct (multicast_socket k tr1 (i_name i) ttl FAM6) as [tr2 sd6] eqn:Em. destruct (socket_spec k tr1 (i_name i) ttl FAM6 tr2 sd6 Hk ltac:(right; reflexivity) P1 N1 Em) as (P2 & N2 & K2 & C). exists tr2, sd6. split; [reflexivity|]. split; [split; assumption|].
      replace (0 <=? i_sd6 i) with false in O1 by lia. cbn [app] in O1.
      assert (K2' : keeps (sd :: rest) tr1 tr2) by (intros x f n t Ix Px; apply K2; [apply (Permutation_in _ (Permutation_sym O1)); exact Ix|exact Px]).
      destruct C as [(L & O2 & Pr)|(L & O2 & _)].
      + replace (0 <=? sd6) with true by lia. split; [rewrite O2; cbn [app]; apply (Permutation_trans (perm_skip sd6 O1)); apply perm_swap|]. split; [exact K2'|]. intros _. exact Pr.
      + replace (0 <=? sd6) with false by lia. split; [rewrite O2; exact O1|]. split; [exact K2'|]. intros K. lia.
    - exists tr1, (i_sd6 i). split; [reflexivity|]. split; [split; assumption|]. replace (0 <=? i_sd6 i) with true in * by lia. cbn [app] in O1. split; [exact O1|]. split; [apply keeps_refl|].
      intros L. apply K1; [left; reflexivity|]. apply R2. exact L. }
  destruct A6 as (tr2 & sd6 & -> & S2 & O2 & K2 & Q2). cbn [setup_ok opt_fds opt_all]. unfold fds, good, ready. cbn [i_sd i_sd6 i_mdns i_mdns6 i_name].
  split; [exact S2|]. split; [unfold fd_of at 1; replace (0 <=? sd) with true by lia; exact O2|]. split; [|split; [split; [tauto|intros L; apply orb_true_iff; right; lia]|split; [|exact Q2]]].
  - apply (keeps_trans _ _ tr1); [|apply (keeps_less _ (sd :: rest)); [intros x I; right; exact I|exact K2]]. apply (keeps_less _ (fd_of (i_sd6 i) ++ rest)); [intros x I; apply in_or_app; auto|exact K1].
  - intros _. apply K2; [left; reflexivity|exact Q1].
Qed.

Definition loop_ok (ttl : Z) (tr : trace) (rest : list Z) (f : fate (list iface)) : Prop :=
  match f with
  | Go tr' l => sound ttl tr' /\ Permutation (opened tr') (all_fds l ++ rest) /\ keeps rest tr tr' /\ Forall good l /\ Forall (ready ttl tr') l
  | Quit tr' c => sound ttl tr' /\ c = 1 /\ refused tr' 2
  | Crash tr' c => ended ttl tr' c
  end.

Lemma fold_spec : forall (body : trace -> iface -> fate (option iface)) ttl,
  (forall tr i rest, sound ttl tr -> Permutation (opened tr) (fds i ++ rest) -> good i -> ready ttl tr i -> setup_ok ttl tr rest (body tr i)) ->
  forall (loop : trace -> list iface -> fate (list iface)), (forall tr, loop tr [] = Go tr []) ->
  (forall tr i l, loop tr (i :: l) = next (body tr i) (fun tr o => next (loop tr l) (fun tr l => Go tr (cons_opt o l)))) ->
  forall l tr rest, sound ttl tr -> Permutation (opened tr) (all_fds l ++ rest) -> Forall good l -> Forall (ready ttl tr) l -> loop_ok ttl tr rest (loop tr l).
Proof.
  intros body ttl B loop L0 L1 l. induction l as [|i l IH]; intros tr rest S O G Rd.
  - rewrite L0. cbn [loop_ok]. auto 6 using keeps_refl.
  - rewrite L1. inversion_clear G as [|? ? Gi Gl]. inversion_clear Rd as [|? ? Ri Rl]. unfold all_fds in O. cbn [map concat] in O. fold (all_fds l) in O. rewrite <- app_assoc in O.
    pose proof (B tr i (all_fds l ++ rest) S O Gi Ri) as Bi. destruct (body tr i) as [tr1 o|tr1 c|tr1 c]; cbn [next setup_ok loop_ok] in *; [|exact Bi|exact Bi].
    destruct Bi as (S1 & O1 & K1 & Go1 & Ro1).
    assert (O1' : Permutation (opened tr1) (all_fds l ++ opt_fds o ++ rest)).
    { apply (Permutation_trans O1). rewrite !app_assoc. apply Permutation_app_tail, Permutation_app_comm. }
    assert (Rl1 : Forall (ready ttl tr1) l).
    { apply Forall_forall. intros j Ij. rewrite Forall_forall in Rl. apply (ready_kept ttl tr tr1 j (all_fds l ++ rest) K1); [|exact (Rl j Ij)].
      intros x Ix. apply in_or_app. left. unfold all_fds. apply in_concat. exists (fds j). split; [apply in_map; exact Ij|exact Ix]. }
    pose proof (IH tr1 (opt_fds o ++ rest) S1 O1' Gl Rl1) as Il. destruct (loop tr1 l) as [tr2 l2|tr2 c|tr2 c]; cbn [next loop_ok] in *; [|exact Il|exact Il].
    destruct Il as (S2 & O2 & K2 & G2 & R2). split; [exact S2|]. split; [|split; [|split]].
    + apply (Permutation_trans O2). destruct o as [j|]; cbn [cons_opt opt_fds app] in *; [|apply Permutation_refl]. unfold all_fds. cbn [map concat]. fold (all_fds l2). rewrite !app_assoc. apply Permutation_app_tail, Permutation_app_comm.
    + apply (keeps_trans _ _ tr1); [apply (keeps_less _ (all_fds l ++ rest)); [intros x I; apply in_or_app; auto|exact K1]|apply (keeps_less _ (opt_fds o ++ rest)); [intros x I; apply in_or_app; auto|exact K2]].
    + destruct o as [j|]; cbn [cons_opt opt_all] in *; [constructor; assumption|exact G2].
    + destruct o as [j|]; cbn [cons_opt opt_all opt_fds] in *; [|exact R2]. constructor; [|exact R2]. apply (ready_kept ttl tr1 tr2 j (fds j ++ rest) K2); [intros x I; apply in_or_app; auto|exact Ro1].
Qed.

Lemma serve1_spec : forall ttl k tr i rest, sound ttl tr -> Permutation (opened tr) (fds i ++ rest) -> good i -> ready ttl tr i -> setup_ok ttl tr rest (serve1 k tr i).
Proof.
  intros ttl k tr i rest S O G Rd. unfold serve1. destruct (i_unused i || (i_sd i <? 0)) eqn:U; [cbn [setup_ok opt_fds opt_all]; auto 6 using keeps_refl|].
  destruct (i_mdns i) eqn:M; cbn [negb]; [|split; [exact S|discriminate]]. apply orb_false_iff in U as [_ U]. pose proof G as [G1 G2]. pose proof Rd as [R1 R2].
  assert (O' : Permutation (opened tr) (i_sd i :: fd_of (i_sd6 i) ++ rest)) by (unfold fds, fd_of in O |- *; replace (0 <=? i_sd i) with true in O by lia; exact O).
  destruct (io_spec ttl tr (i_sd i) (k tr (AIo (i_sd i))) 2 (i_name i) _ S O' (R1 ltac:(lia))) as (S1 & E1 & K1). set (tr1 := tr ++ [(AIo (i_sd i), k tr (AIo (i_sd i)))]) in *.
  assert (Kr : keeps rest tr tr1) by (apply (keeps_less _ (i_sd i :: fd_of (i_sd6 i) ++ rest)); [intros x I; right; apply in_or_app; auto|exact K1]).
  assert (Rd1 : ready ttl tr1 i) by (apply (ready_kept ttl tr tr1 i (fds i)); [unfold fds, fd_of at 1; replace (0 <=? i_sd i) with true by lia; apply (keeps_less _ (i_sd i :: fd_of (i_sd6 i) ++ rest)); [intros x [<-|I]; [left; reflexivity|right; apply in_or_app; auto]|exact K1]|auto|exact Rd]).
  assert (O1 : Permutation (opened tr1) (fds i ++ rest)) by (rewrite E1; exact O).
  destruct (negb (k tr (AIo (i_sd i)) =? 0)).
  { pose proof (free_spec ttl k tr1 i rest S1 O1 G Rd1) as F. destruct (free_iface k tr1 i) as [tr' []|tr' c|tr' c]; cbn [next setup_ok opt_fds opt_all app]; [|contradiction|destruct F as (-> & _ & ->); split; [exact S1|discriminate]].
    destruct F as (F1 & F2 & F3). split; [exact F1|]. split; [exact F2|]. split; [apply (keeps_trans _ _ tr1); assumption|auto]. }
  destruct (i_mdns6 i && (0 <=? i_sd6 i)) eqn:B6; [|cbn [setup_ok opt_fds opt_all]; auto]. apply andb_true_iff in B6 as [M6 L6].
  assert (O6 : Permutation (opened tr1) (i_sd6 i :: i_sd i :: rest)).
  { apply (Permutation_trans O1). unfold fds, fd_of. replace (0 <=? i_sd i) with true by lia. rewrite L6. apply perm_swap. }
  destruct Rd1 as [R1' R2'].
  destruct (io_spec ttl tr1 (i_sd6 i) (k tr1 (AIo (i_sd6 i))) 10 (i_name i) _ S1 O6 (R2' ltac:(lia))) as (S2 & E2 & K2). set (tr2 := tr1 ++ [(AIo (i_sd6 i), k tr1 (AIo (i_sd6 i)))]) in *.
  assert (Kr2 : keeps rest tr tr2) by (apply (keeps_trans _ _ tr1); [exact Kr|apply (keeps_less _ (i_sd6 i :: i_sd i :: rest)); [intros x I; right; right; exact I|exact K2]]).
  destruct (negb (k tr1 (AIo (i_sd6 i)) =? 0)).
  - destruct (close_spec ttl tr2 (i_sd6 i) (k tr2 (AClose (i_sd6 i))) (i_sd i :: rest) S2 ltac:(rewrite E2; exact O6)) as (S3 & P3 & K3). cbn [setup_ok opt_fds opt_all].
    unfold fds, good, ready, lost6. cbn [i_sd i_sd6 i_mdns i_mdns6 i_name]. split; [exact S3|]. split; [unfold fd_of; replace (0 <=? i_sd i) with true by lia; exact P3|].
    split; [apply (keeps_trans _ _ tr2); [exact Kr2|apply (keeps_less _ (i_sd i :: rest)); [intros x I; right; exact I|exact K3]]|]. split; [split; [exact G1|intros K; cbn in K; lia]|]. split; [|intros K; lia].
    intros L. apply K3; [left; reflexivity|]. apply K2; [right; left; reflexivity|]. apply R1'. exact L.
  - cbn [setup_ok opt_fds opt_all]. split; [exact S2|]. split; [rewrite E2; exact O1|]. split; [exact Kr2|]. split; [exact G|].
    split; intros L; apply K2; [right; left; reflexivity|apply R1'; exact L|left; reflexivity|apply R2'; exact L].
Qed.

(* ---- Scans do not touch descriptors ---- *)
Definition same_fds (i j : iface) : Prop := i_sd i = i_sd j /\ i_sd6 i = i_sd6 j /\ i_mdns i = i_mdns j /\ i_mdns6 i = i_mdns6 j /\ i_name i = i_name j.
Definition fresh_one (i : iface) : Prop := i_sd i = -1 /\ i_sd6 i = -1 /\ i_mdns i = false /\ i_mdns6 i = false.
Definition rescanned (l l' : list iface) : Prop := exists new, exists old, l' = old ++ new /\ Forall2 same_fds l old /\ Forall fresh_one new.

Lemma same_refl : forall i, same_fds i i.
Proof. intros i. repeat split. Qed.
Lemma same_trans : forall a b c, same_fds a b -> same_fds b c -> same_fds a c.
Proof. unfold same_fds. intuition congruence. Qed.
Lemma same_fresh : forall i j, same_fds i j -> fresh_one i -> fresh_one j.
Proof. unfold same_fds, fresh_one. intuition congruence. Qed.
Lemma rescanned_refl : forall l, rescanned l l.
Proof. intros l. exists [], l. rewrite app_nil_r. split; [reflexivity|]. split; [induction l; constructor; auto using same_refl|constructor]. Qed.
Lemma same_all_refl : forall l, Forall2 same_fds l l.
Proof. induction l; constructor; auto using same_refl. Qed.
Lemma same_all_trans : forall a b, Forall2 same_fds a b -> forall c, Forall2 same_fds b c -> Forall2 same_fds a c.
Proof. intros a b H. induction H as [|x y a b E H IH]; intros c K; inversion_clear K; constructor; eauto using same_trans. Qed.
Lemma fresh_all : forall a b, Forall2 same_fds a b -> Forall fresh_one a -> Forall fresh_one b.
Proof. intros a b H. induction H as [|x y a b E H IH]; intros K; inversion_clear K; constructor; eauto using same_fresh. Qed.
Lemma map_same : forall f, (forall i, same_fds i (f i)) -> forall l, Forall2 same_fds l (map f l).
Proof. intros f F l. induction l; constructor; auto. Qed.
Lemma rescanned_trans : forall a b c, rescanned a b -> rescanned b c -> rescanned a c.
Proof.
  intros a b c (n1 & o1 & -> & A1 & F1) (n2 & o2 & -> & A2 & F2). apply Forall2_app_inv_l in A2 as (x & y & B1 & B2 & ->). exists (y ++ n2), x. split; [rewrite app_assoc; reflexivity|].
  split; [eapply same_all_trans; eassumption|]. apply Forall_app. split; [eapply fresh_all; eassumption|exact F2].
Qed.
Lemma upd_same : forall l i x y, nth_error l i = Some x -> same_fds x y -> Forall2 same_fds l (upd l i y).
Proof.
  induction l as [|z l IH]; intros [|i] x y E S; try discriminate; cbn [upd nth_error] in *; constructor; auto using same_refl, same_all_refl.
  - injection E as ->. exact S.
  - eapply IH; eassumption.
Qed.
Lemma same_rescanned : forall a b, Forall2 same_fds a b -> rescanned a b.
Proof. intros a b H. exists [], b. rewrite app_nil_r. auto. Qed.
Lemma take_same : forall i s, same_fds i (take i s).
Proof. intros i s. unfold take. destruct s; try apply same_refl; destruct (negb _); try apply same_refl; destruct (_ || _); try apply same_refl; repeat split. Qed.

Lemma scan_rescanned : forall only es l cur, rescanned l (iface_scan only es l cur).
Proof.
  intros only es. induction es as [|e es IH]; intros l cur; cbn [iface_scan]; [apply rescanned_refl|]. destruct (skipped only e); [apply IH|].
  set (c := match cur with Some i => Some i | None => iface_find l (n_name e) 0 end). destruct c as [j|].
  - destruct (nth_error l j) as [x|] eqn:E.
    + apply (rescanned_trans _ (upd l j (in_use x))); [apply same_rescanned, (upd_same l j x); [exact E|repeat split]|].
      set (l1 := upd l j (in_use x)). destruct (nth_error l1 j) as [y|] eqn:E2; [|apply IH]. apply (rescanned_trans _ (upd l1 j (take y (n_sock e)))); [apply same_rescanned, (upd_same l1 j y); [exact E2|apply take_same]|apply IH].
    + rewrite E. apply IH.
  - apply (rescanned_trans _ (l ++ [iface_new (n_name e)])). { exists [iface_new (n_name e)], l. split; [reflexivity|]. split; [apply same_all_refl|]. constructor; [repeat split|constructor]. }
    set (l1 := l ++ [iface_new (n_name e)]). destruct (nth_error l1 (length l)) as [y|] eqn:E2; [|apply IH]. apply (rescanned_trans _ (upd l1 (length l) (take y (n_sock e)))); [apply same_rescanned, (upd_same l1 _ y); [exact E2|apply take_same]|apply IH].
Qed.
Lemma init_rescanned : forall only es l, rescanned l (iface_init only es l).
Proof.
  intros only es l. unfold iface_init. apply (rescanned_trans _ (mark l)); [apply same_rescanned, map_same; intros i; repeat split|]. apply (rescanned_trans _ (iface_scan only es (mark l) None)); [apply scan_rescanned|].
  apply same_rescanned, map_same. intros i. unfold sweep1. destruct (i_unused i); [apply same_refl|]. destruct (negb (i_changed i)); [apply same_refl|]. destruct (_ && _); [repeat split|apply same_refl].
Qed.

Lemma rescanned_keeps : forall ttl tr l l', rescanned l l' -> all_fds l' = all_fds l /\ (Forall good l -> Forall good l') /\ (Forall (ready ttl tr) l -> Forall (ready ttl tr) l').
Proof.
  intros ttl tr l l' (new & old & -> & A & F). assert (N : all_fds new = [] /\ Forall good new /\ Forall (ready ttl tr) new).
  { clear A. induction F as [|i new (F1 & F2 & F3 & F4) F (IH1 & IH2 & IH3)]; [repeat constructor|]. unfold all_fds in *. cbn [map concat]. rewrite IH1, app_nil_r. unfold fds. rewrite F1, F2.
    split; [reflexivity|]. split; constructor; try assumption; [unfold good|unfold ready]; rewrite F1, F2; try rewrite F3; split; try (intros; lia); split; intros; try discriminate; lia. }
  destruct N as (N1 & N2 & N3). unfold all_fds in *. rewrite map_app, concat_app, N1, app_nil_r. split; [|split].
  - clear F N1 N2 N3. induction A as [|i j a b (A1 & A2 & _) A IH]; [reflexivity|]. cbn [map concat]. rewrite IH. unfold fds. rewrite A1, A2. reflexivity.
  - intros G. apply Forall_app. split; [|exact N2]. clear F N1 N2 N3. induction A as [|i j a b (A1 & A2 & A3 & A4 & A5) A IH]; [constructor|]. inversion_clear G as [|? ? [G1 G2] Gl]. constructor; [|auto]. unfold good. rewrite <- A1, <- A2, <- A3, <- A4. split; assumption.
  - intros G. apply Forall_app. split; [|exact N3]. clear F N1 N2 N3. induction A as [|i j a b (A1 & A2 & A3 & A4 & A5) A IH]; [constructor|]. inversion_clear G as [|? ? [G1 G2] Gl]. constructor; [|auto]. unfold ready. rewrite <- A1, <- A2, <- A5. split; assumption.
Qed.

Lemma sys_init_spec : forall ttl k tr only es l rest, honest k -> sound ttl tr -> Permutation (opened tr) (all_fds l ++ rest) -> Forall good l -> Forall (ready ttl tr) l -> loop_ok ttl tr rest (sys_init k tr only ttl es l).
Proof.
  intros ttl k tr only es l rest Hk S O G Rd. unfold sys_init. set (l' := match es with Some es => iface_init only es l | None => l end).
  assert (A : rescanned l l') by (unfold l'; destruct es; [apply init_rescanned|apply rescanned_refl]). destruct (rescanned_keeps ttl tr l l' A) as (A1 & A2 & A3).
  apply (fold_spec (fun tr i => setup_iface k tr ttl i) ttl (fun tr i rest => setup_spec ttl k tr i rest Hk) (fun tr l => setup_all k tr ttl l)); try reflexivity; try assumption; [rewrite A1; exact O|apply A2; exact G|apply A3; exact Rd].
Qed.
Lemma serve_spec : forall ttl k tr l rest, sound ttl tr -> Permutation (opened tr) (all_fds l ++ rest) -> Forall good l -> Forall (ready ttl tr) l -> loop_ok ttl tr rest (serve k tr l).
Proof.
  intros ttl k tr l rest S O G Rd. apply (fold_spec (fun tr i => serve1 k tr i) ttl (serve1_spec ttl k) (fun tr l => serve k tr l)); try reflexivity; assumption.
Qed.

Lemma watched_in : forall nl l x, In x (watched nl l) -> In x (all_fds l ++ fd_of nl).
Proof.
  intros nl l x I. unfold watched in I. apply in_app_or in I as [I|I]; apply in_or_app; [right; exact I|left]. unfold all_fds. apply in_concat in I as (y & Iy & Ix). apply in_map_iff in Iy as (i & <- & Ii).
  apply in_concat. exists (fds i). split; [apply in_map; exact Ii|]. unfold fds, fd_of. destruct ((i_sd i <? 0) || i_unused i) eqn:U; [destruct Ix|]. apply orb_false_iff in U as [U _]. replace (0 <=? i_sd i) with true by lia.
  destruct Ix as [<-|Ix]; [left; reflexivity|right; exact Ix].
Qed.

Lemma plain_spec : forall ttl tr c r, sound ttl tr -> (forall fd, In fd (uses c) -> In fd (opened tr)) -> (match c with ASelect _ | ANetlink _ => True | _ => False end) ->
  sound ttl (tr ++ [(c, r)]) /\ opened (tr ++ [(c, r)]) = opened tr /\ forall rest, keeps rest tr (tr ++ [(c, r)]).
Proof.
  intros ttl tr c r [P N] U C. assert (E : opened (tr ++ [(c, r)]) = opened tr) by (rewrite opened_snoc; destruct c; try contradiction; reflexivity).
  split; [split; [apply proper_snoc; [exact P|split; [exact U|intros fd ->; contradiction]]|rewrite E; exact N]|]. split; [exact E|]. intros rest. apply keeps_one. intros fd _ ->. contradiction.
Qed.

Lemma loop_more : forall ttl tr tr1 rest f, keeps rest tr tr1 -> loop_ok ttl tr1 rest f -> loop_ok ttl tr rest f.
Proof. intros ttl tr tr1 rest f K H. destruct f; cbn [loop_ok] in *; auto. destruct H as (A & B & C & D). split; [exact A|]. split; [exact B|]. split; [exact (keeps_trans _ _ _ _ K C)|exact D]. Qed.
Lemma ready_all : forall ttl tr tr' l rest, keeps (all_fds l ++ rest) tr tr' -> Forall (ready ttl tr) l -> Forall (ready ttl tr') l.
Proof.
  intros ttl tr tr' l rest K H. apply Forall_forall. intros j Ij. rewrite Forall_forall in H. apply (ready_kept ttl tr tr' j _ K); [|exact (H j Ij)].
  intros x Ix. apply in_or_app. left. unfold all_fds. apply in_concat. exists (fds j). split; [apply in_map; exact Ij|exact Ix].
Qed.

(* A turn: the loop goes on with a list that fits, or is left with the list it had *)
Definition turn_ok (ttl : Z) (tr : trace) (rest : list Z) (l : list iface) (f : fate (option (list iface))) : Prop :=
  match f with
  | Go tr' (Some l') => loop_ok ttl tr rest (Go tr' l')
  | Go tr' None => loop_ok ttl tr rest (Go tr' l)
  | Quit tr' c => sound ttl tr' /\ c = 1 /\ refused tr' 2
  | Crash tr' c => ended ttl tr' c
  end.

Lemma contexts_spec : forall l tr, match contexts tr l with Go tr' _ => tr' = tr /\ forall i, In i l -> i_mdns i = true | Quit _ _ => False | Crash tr' c => tr' = tr /\ c = NullContext /\ exists i, In i l /\ i_mdns i = false end.
Proof.
  induction l as [|i l IH]; intros tr; cbn [contexts]; [split; [reflexivity|intros i []]|]. destruct (i_mdns i) eqn:M; [|split; [reflexivity|split; [reflexivity|exists i; split; [left; reflexivity|exact M]]]].
  specialize (IH tr). destruct (contexts tr l) as [tr' u|tr' c|tr' c]; [|exact IH|]; [destruct IH as [A B]; split; [exact A|intros j [<-|I]; auto]|].
  destruct IH as (A & B & j & C & D). split; [exact A|]. split; [exact B|]. exists j. split; [right; exact C|exact D].
Qed.

Lemma turn_spec : forall ttl k tr only nl t l, honest k -> sound ttl tr -> Permutation (opened tr) (all_fds l ++ fd_of nl) -> Forall good l -> Forall (ready ttl tr) l -> turn_ok ttl tr (fd_of nl) l (loop_turn k tr only ttl nl t l).
Proof.
  intros ttl k tr only nl t l Hk S O G Rd. unfold loop_turn. destruct (existsb _ (watched nl l)) eqn:W.
  { split; [exact S|]. intros _. apply existsb_exists in W as (fd & I & W). exists fd. split; [apply (Permutation_in _ (Permutation_sym O)), watched_in; exact I|unfold FD_SETSIZE in W; lia]. }
  destruct (plain_spec ttl tr (ASelect (watched nl l)) (k tr (ASelect (watched nl l))) S) as (S1 & E1 & K1); [intros x I; apply (Permutation_in _ (Permutation_sym O)), watched_in; exact I|exact I|].
  set (tr1 := tr ++ [(ASelect (watched nl l), k tr (ASelect (watched nl l)))]) in *. pose proof (ready_all ttl tr tr1 l (fd_of nl) (K1 _) Rd) as Rd1.
  assert (O1 : Permutation (opened tr1) (all_fds l ++ fd_of nl)) by (rewrite E1; exact O).
  destruct (t_eintr t || t_reload t).
  { destruct (t_running t); cbn [negb]; [|cbn [turn_ok loop_ok]; auto 6]. destruct (t_reload t); [|cbn [turn_ok loop_ok]; auto 6].
    pose proof (loop_more _ _ _ _ _ (K1 _) (sys_init_spec ttl k tr1 only (t_es1 t) l (fd_of nl) Hk S1 O1 G Rd1)) as H. destruct (sys_init k tr1 only ttl (t_es1 t) l) as [tr2 l2|tr2 c|tr2 c]; cbn [next loop_ok turn_ok] in *; [|exact H|exact H].
    pose proof (contexts_spec l2 tr2) as C. destruct (contexts tr2 l2) as [tr3 u|tr3 c|tr3 c]; cbn [next turn_ok loop_ok]; [destruct C as [-> _]; exact H|contradiction|destruct C as (-> & -> & _); split; [tauto|discriminate]]. }
  set (nlread := (0 <=? nl) && t_nlready t). set (rc := k tr1 (ANetlink nl)).
  assert (A2 : exists tr2, (if nlread then tr1 ++ [(ANetlink nl, rc)] else tr1) = tr2 /\ sound ttl tr2 /\ opened tr2 = opened tr1 /\ forall rest, keeps rest tr1 tr2).
  { destruct nlread eqn:Nr; [|exists tr1; split; [reflexivity|split; [exact S1|split; [reflexivity|intros; apply keeps_refl]]]]. eexists. split; [reflexivity|]. apply (plain_spec ttl tr1 (ANetlink nl) rc S1); [|exact I].
    intros x [<-|[]]. apply (Permutation_in _ (Permutation_sym O1)). apply in_or_app. right. unfold nlread in Nr. apply andb_true_iff in Nr as [Nr _]. unfold fd_of. rewrite Nr. left. reflexivity. }
  destruct A2 as (tr2 & -> & S2 & E2 & K2). pose proof (ready_all ttl tr1 tr2 l (fd_of nl) (K2 _) Rd1) as Rd2. assert (O2 : Permutation (opened tr2) (all_fds l ++ fd_of nl)) by (rewrite E2; exact O1).
  assert (K12 : keeps (fd_of nl) tr tr2) by (apply (keeps_trans _ _ tr1); auto).
  assert (H3 : loop_ok ttl tr (fd_of nl) (if nlread && (0 <? rc) then sys_init k tr2 only ttl (t_es2 t) l else Go tr2 l)).
  { apply (loop_more _ _ tr2 _ _ K12). destruct (nlread && (0 <? rc)); [apply sys_init_spec; assumption|cbn [loop_ok]; auto 6 using keeps_refl]. }
  destruct (if nlread && (0 <? rc) then sys_init k tr2 only ttl (t_es2 t) l else Go tr2 l) as [tr3 l3|tr3 c|tr3 c]; cbn [next turn_ok loop_ok] in *; [|exact H3|exact H3]. destruct H3 as (S3 & O3 & K3 & G3 & R3).
  assert (H4 : loop_ok ttl tr (fd_of nl) (if t_poll t then sys_init k tr3 only ttl (t_es3 t) l3 else Go tr3 l3)).
  { apply (loop_more _ _ tr3 _ _ K3). destruct (t_poll t); [apply sys_init_spec; assumption|cbn [loop_ok]; auto 6 using keeps_refl]. }
  destruct (if t_poll t then sys_init k tr3 only ttl (t_es3 t) l3 else Go tr3 l3) as [tr4 l4|tr4 c|tr4 c]; cbn [next turn_ok loop_ok] in *; [|exact H4|exact H4]. destruct H4 as (S4 & O4 & K4 & G4 & R4).
  pose proof (loop_more _ _ _ _ _ K4 (serve_spec ttl k tr4 l4 (fd_of nl) S4 O4 G4 R4)) as H5. destruct (serve k tr4 l4) as [tr5 l5|tr5 c|tr5 c]; cbn [next turn_ok loop_ok] in *; exact H5.
Qed.

Lemma main_loop_spec : forall ttl k only nl ts tr l, honest k -> sound ttl tr -> Permutation (opened tr) (all_fds l ++ fd_of nl) -> Forall good l -> Forall (ready ttl tr) l -> loop_ok ttl tr (fd_of nl) (main_loop k tr only ttl nl ts l).
Proof.
  intros ttl k only nl ts. induction ts as [|t ts IH]; intros tr l Hk S O G Rd; cbn [main_loop]; [cbn [loop_ok]; auto 6 using keeps_refl|].
  pose proof (turn_spec ttl k tr only nl t l Hk S O G Rd) as H. destruct (loop_turn k tr only ttl nl t l) as [tr1 [l1|]|tr1 c|tr1 c]; cbn [next turn_ok] in *; [|exact H|exact H|exact H].
  cbn [loop_ok] in H. destruct H as (S1 & O1 & K1 & G1 & R1). apply (loop_more _ _ tr1 _ _ K1). apply IH; assumption.
Qed.

Lemma free_all_spec : forall ttl k l tr rest, sound ttl tr -> Permutation (opened tr) (all_fds l ++ rest) -> Forall good l -> Forall (ready ttl tr) l ->
  match free_all k tr l with Go tr' _ => sound ttl tr' /\ Permutation (opened tr') rest | Quit _ _ => False | Crash tr' c => ended ttl tr' c end.
Proof.
  intros ttl k l. induction l as [|i l IH]; intros tr rest S O G Rd; cbn [free_all]; [auto|]. inversion_clear G as [|? ? Gi Gl]. inversion_clear Rd as [|? ? Ri Rl].
  unfold all_fds in O. cbn [map concat] in O. fold (all_fds l) in O. rewrite <- app_assoc in O. pose proof (free_spec ttl k tr i (all_fds l ++ rest) S O Gi Ri) as F.
  destruct (free_iface k tr i) as [tr1 u|tr1 c|tr1 c]; cbn [next] in *; [|contradiction|destruct F as (-> & _ & ->); split; [exact S|discriminate]]. destruct F as (S1 & O1 & K1). apply IH; try assumption. apply (ready_all ttl tr tr1 l rest K1 Rl).
Qed.

Lemma netlink_spec : forall ttl k tr tr' nl, honest k -> sound ttl tr -> netlink_init k tr = (tr', nl) -> sound ttl tr' /\ opened tr' = fd_of nl ++ opened tr /\ keeps (opened tr) tr tr'.
Proof.
  intros ttl k tr tr' nl Hk [P N] E. unfold netlink_init in E. set (fd := k tr (ASocket FAMNL)) in *. set (tr1 := tr ++ [(ASocket FAMNL, fd)]) in *.
  assert (P1 : all_proper ttl tr1) by (apply proper_snoc; [exact P|split; [intros x []|discriminate]]). assert (K1 : keeps (opened tr) tr tr1) by (apply keeps_one; discriminate). unfold fd_of.
  destruct (fd <? 0) eqn:Ef.
  { injection E as <- <-. assert (O1 : opened tr1 = opened tr) by (unfold tr1; rewrite opened_snoc; cbn [note]; replace (0 <=? fd) with false by lia; reflexivity). split; [split; [exact P1|rewrite O1; exact N]|]. split; [exact O1|exact K1]. }
  assert (O1 : opened tr1 = fd :: opened tr) by (unfold tr1; rewrite opened_snoc; cbn [note]; replace (0 <=? fd) with true by lia; reflexivity).
  assert (Nf : ~ In fd (opened tr)) by (apply Hk; fold fd; lia).
  set (r := k tr1 (ABind fd 0)) in *. set (tr2 := tr1 ++ [(ABind fd 0, r)]) in *. assert (O2 : opened tr2 = fd :: opened tr) by (unfold tr2; rewrite opened_snoc; exact O1).
  assert (P2 : all_proper ttl tr2) by (apply proper_snoc; [exact P1|split; [intros x [<-|[]]; rewrite O1; left; reflexivity|discriminate]]). assert (K2 : keeps (opened tr) tr tr2) by (apply (keeps_trans _ _ tr1); [exact K1|apply keeps_one; discriminate]).
  destruct (r <? 0); injection E as <- <-.
  - set (tr3 := tr2 ++ [(AClose fd, k tr2 (AClose fd))]). assert (O3 : opened tr3 = opened tr) by (unfold tr3; rewrite opened_snoc, O2; cbn [note filter]; rewrite Z.eqb_refl; cbn [negb]; apply filter_out; exact Nf).
    split; [split; [apply proper_snoc; [exact P2|split; [intros x [<-|[]]; rewrite O2; left; reflexivity|discriminate]]|rewrite O3; exact N]|]. split; [exact O3|]. apply (keeps_trans _ _ tr2); [exact K2|]. apply keeps_one.
    intros x I K. injection K as K. apply Nf. rewrite K. exact I.
  - replace (0 <=? fd) with true by lia. split; [split; [exact P2|rewrite O2; constructor; assumption]|]. split; [exact O2|exact K2].
Qed.

Lemma main_spec : forall k only ttl es0 ts, honest k ->
  match main k only ttl es0 ts with
  | Go _ _ => False
  | Quit tr 0 => sound (ttl mod 256) tr /\ opened tr = []
  | Quit tr c => sound (ttl mod 256) tr /\ c = 1 /\ refused tr 2
  | Crash tr c => ended (ttl mod 256) tr c
  end.
Proof.
  intros k only ttl es0 ts Hk. unfold main. set (b := ttl mod 256). assert (S0 : sound b []) by (split; [apply proper_nil|constructor]).
  pose proof (sys_init_spec b k [] only es0 [] [] Hk S0 ltac:(constructor) ltac:(constructor) ltac:(constructor)) as H. destruct (sys_init k [] only b es0 []) as [tr l|tr c|tr c]; cbn [next loop_ok] in *; [|destruct H as (? & -> & ?); auto|exact H].
  destruct H as (S1 & O1 & _ & G1 & R1). rewrite app_nil_r in O1. destruct (netlink_init k tr) as [tr2 nl] eqn:En. destruct (netlink_spec b k tr tr2 nl Hk S1 En) as (S2 & O2 & K2).
  assert (O2' : Permutation (opened tr2) (all_fds l ++ fd_of nl)) by (rewrite O2; apply (Permutation_trans (Permutation_app_comm _ _)); apply Permutation_app_tail; exact O1).
  assert (R2 : Forall (ready b tr2) l) by (apply (ready_all b tr tr2 l []); [|exact R1]; rewrite app_nil_r; apply (keeps_less _ (opened tr)); [intros x I; apply (Permutation_in _ (Permutation_sym O1)); exact I|exact K2]).
  pose proof (main_loop_spec b k only nl ts tr2 l Hk S2 O2' G1 R2) as H. destruct (main_loop k tr2 only b nl ts l) as [tr3 l3|tr3 c|tr3 c]; cbn [next loop_ok] in *; [|destruct H as (? & -> & ?); auto|exact H].
  destruct H as (S3 & O3 & _ & G3 & R3). pose proof (free_all_spec b k l3 tr3 (fd_of nl) S3 O3 G3 R3) as H. destruct (free_all k tr3 l3) as [tr4 u|tr4 c|tr4 c]; cbn [next] in *; [|contradiction|exact H]. destruct H as (S4 & O4).
  unfold close_if, fd_of in *. destruct (0 <=? nl) eqn:E.
  - destruct (close_spec b tr4 nl (k tr4 (AClose nl)) [] S4 O4) as (S5 & O5 & _). split; [exact S5|]. apply Permutation_sym, Permutation_nil in O5. exact O5.
  - split; [exact S4|]. apply Permutation_sym, Permutation_nil in O4. exact O4.
Qed.

Lemma opened_from : forall tr fd, In fd (opened tr) -> exists f, In (ASocket f, fd) tr.
Proof.
  intros tr. induction tr as [|[c r] tr IH] using rev_ind; intros fd I; [destruct I|]. rewrite opened_snoc in I.
  assert (G : In fd (opened tr) -> exists f, In (ASocket f, fd) (tr ++ [(c, r)])) by (intros J; destruct (IH fd J) as (f & K); exists f; apply in_or_app; auto).
  destruct c as [f|x o|x p|x|x|x|x]; cbn [note] in I; auto.
  - destruct (0 <=? r); [|auto]. destruct I as [<-|I]; [|auto]. exists f. apply in_or_app. right. left. reflexivity.
  - apply filter_In in I as [I _]. auto.
Qed.

(* ---- Every interface has its context ---- *)
From Verif Require Import SpecIface FactsIface.

Definition up (i : iface) : Prop := i_mdns i = true /\ 0 <= i_sd i.
Definition served (l : list iface) : Prop := settled l /\ Forall up l.
Definition to_set_up (l : list iface) : Prop := NoDup (map i_name l) /\ (forall i, In i l -> i_unused i = true -> i_changed i = false) /\ forall i, In i l -> i_changed i = false -> up i.

Lemma init_set_up : forall only es l, served l -> short_names es -> SpecIface.proper es -> no_any es -> to_set_up (iface_init only es l).
Proof.
  intros only es l [St M] SN P NA. destruct (init_at only es l (proj1 St) SN) as [ND' A]. split; [exact ND'|]. split; [exact (init_settled only es l St SN)|]. intros i Ii C.
  destruct (in_dec (list_eq_dec Z.eq_dec) (i_name i) (map i_name l)) as [Y|Y].
  - pose proof (in_at _ i ND' Ii) as Ei. rewrite A in Ei. apply in_map_iff in Y as (x & Nx & Ix). rewrite <- Nx, (in_at l x (proj1 St) Ix) in Ei.
    rewrite Forall_forall in M. specialize (M x Ix). destruct (socks only es (i_name x)) as [|s ss]; cbn [option_map] in Ei.
    + assert (Q : i = mark1 x) by congruence. rewrite Q. exact M.
    + assert (Q : i = sweep1 (seen (s :: ss) (mark1 x))) by congruence. rewrite Q. unfold up. destruct (sweep1_addrs (seen (s :: ss) (mark1 x))) as (_ & _ & _ & -> & _ & -> & _).
      destruct (seen_frame (s :: ss) (mark1 x)) as (_ & _ & _ & -> & _ & -> & _). exact M.
  - exfalso. destruct (new_changed only es l (proj1 St) SN P NA i Ii Y) as (_ & K & _). congruence.
Qed.

Lemma setup_all_served : forall k ttl l tr, to_set_up l -> match Main.setup_all k tr ttl l with Go _ l' => served l' /\ map i_name l' = map i_name l | Quit _ _ => True | Crash _ _ => False end.
Proof.
  intros k ttl l. induction l as [|i l IH]; intros tr (N & A & B); cbn [Main.setup_all]; [repeat constructor|].
  assert (T : to_set_up l) by (inversion N; split; [assumption|split; intros j Ij; [apply A|apply B]; right; exact Ij]).
  assert (H : match Main.setup_iface k tr ttl i with Go _ o => exists j, o = Some j /\ i_name j = i_name i /\ i_changed j = false /\ up j | Quit _ _ => True | Crash _ _ => False end).
  { unfold Main.setup_iface. destruct (i_changed i) eqn:C; cbn [negb]; [|exists i; split; [reflexivity|split; [reflexivity|split; [exact C|apply B; [left; reflexivity|exact C]]]]].
    destruct (i_unused i) eqn:U; [rewrite (A i (or_introl eq_refl) U) in C; discriminate|].
    destruct (if i_sd i <? 0 then multicast_socket k tr (i_name i) ttl FAM4 else (tr, i_sd i)) as [tr1 sd]. destruct (sd <? 0) eqn:Sd; [exact I|].
    destruct (if i_sd6 i <? 0 then multicast_socket k tr1 (i_name i) ttl FAM6 else (tr1, i_sd6 i)) as [tr2 sd6]. eexists. split; [reflexivity|]. cbn [i_name i_changed]. unfold up. cbn [i_mdns i_sd]. repeat split; lia. }
  destruct (Main.setup_iface k tr ttl i) as [tr1 o|tr1 c|tr1 c]; cbn [next]; [|exact I|exact H]. destruct H as (j & -> & Nj & Cj & Mj).
  specialize (IH tr1 T). destruct (Main.setup_all k tr1 ttl l) as [tr2 l2|tr2 c|tr2 c]; cbn [next cons_opt]; [|exact I|exact IH]. destruct IH as (((S1 & S2) & S3) & E).
  split; [|cbn [map]; rewrite Nj, E; reflexivity]. split; [split|]; [|constructor; assumption|constructor; assumption]. cbn [map]. rewrite Nj, E. exact N.
Qed.

Lemma sys_init_served : forall k ttl only es l tr, served l -> (forall x, es = Some x -> short_names x /\ SpecIface.proper x /\ no_any x) ->
  match Main.sys_init k tr only ttl es l with Go _ l' => served l' | Quit _ _ => True | Crash _ _ => False end.
Proof.
  intros k ttl only es l tr W F. unfold Main.sys_init. assert (T : to_set_up (match es with Some es => iface_init only es l | None => l end)).
  { destruct es as [es|]; [destruct (F es eq_refl) as (F1 & F2 & F3); apply init_set_up; assumption|]. destruct W as [[N C] M]. rewrite Forall_forall in C, M. split; [exact N|]. split; intros i Ii; auto. }
  pose proof (setup_all_served k ttl _ tr T) as H. destruct (Main.setup_all k tr ttl _); tauto.
Qed.

Lemma free_served : forall k tr i, i_mdns i = true -> exists tr', Main.free_iface k tr i = Go tr' tt.
Proof. intros k tr i M. unfold Main.free_iface. rewrite M. cbn [negb]. destruct (i_mdns6 i); eauto. Qed.
Lemma serve_served : forall k l tr, served l -> match serve k tr l with Go _ l' => served l' /\ (forall n, In n (map i_name l') -> In n (map i_name l)) | Quit _ _ => False | Crash _ _ => False end.
Proof.
  intros k l. induction l as [|i l IH]; intros tr [[N C] M]; cbn [serve]; [repeat constructor; intros n []|]. inversion_clear N as [|? ? N1 N2]. inversion_clear C as [|? ? C1 C2]. inversion_clear M as [|? ? M1 M2].
  assert (H : match serve1 k tr i with Go _ o => match o with Some j => i_name j = i_name i /\ i_changed j = false /\ up j | None => True end | Quit _ _ => False | Crash _ _ => False end).
  { pose proof M1 as [M1a M1b]. unfold serve1. destruct (i_unused i || (i_sd i <? 0)); [auto|]. rewrite M1a. cbn [negb]. destruct (negb (k tr (AIo (i_sd i)) =? 0)).
    - destruct (free_served k (tr ++ [(AIo (i_sd i), k tr (AIo (i_sd i)))]) i M1a) as (tr' & ->). exact I.
    - destruct (i_mdns6 i && (0 <=? i_sd6 i)); [|auto]. destruct (negb _); [|auto]. unfold up. cbn [lost6 i_name i_changed i_mdns i_sd]. auto. }
  destruct (serve1 k tr i) as [tr1 o|tr1 c|tr1 c]; cbn [next]; [|exact H|exact H]. specialize (IH tr1 (conj (conj N2 C2) M2)). destruct (serve k tr1 l) as [tr2 l2|tr2 c|tr2 c]; cbn [next]; [|exact IH|exact IH].
  destruct IH as (((S1 & S2) & S3) & E). destruct o as [j|]; cbn [cons_opt].
  - destruct H as (Nj & Cj & Mj). split; [split; [split|]|]; [|constructor; assumption|constructor; assumption|].
    + cbn [map]. rewrite Nj. constructor; [|exact S1]. intros K. apply N1. apply E. exact K.
    + intros n [<-|K]; [left; symmetry; exact Nj|right; apply E; exact K].
  - split; [split; [split; assumption|assumption]|]. intros n K. right. apply E. exact K.
Qed.
Lemma free_all_served : forall k l tr, Forall up l -> exists tr', Main.free_all k tr l = Go tr' tt.
Proof. intros k l. induction l as [|i l IH]; intros tr M; cbn [Main.free_all]; [eauto|]. inversion_clear M as [|? ? M1 M2]. destruct (free_served k tr i (proj1 M1)) as (tr1 & ->). cbn [next]. apply IH. exact M2. Qed.
Lemma contexts_served : forall l tr, Forall up l -> contexts tr l = Go tr tt.
Proof. intros l. induction l as [|i l IH]; intros tr M; cbn [contexts]; [reflexivity|]. inversion_clear M as [|? ? M1 M2]. rewrite (proj1 M1). apply IH. exact M2. Qed.


Lemma turn_served : forall k tr only ttl nl t l, served l -> real_turn t -> match loop_turn k tr only ttl nl t l with Go _ (Some l') => served l' | Go _ None => True | Quit _ _ => True | Crash _ c => c = FdSet end.
Proof.
  intros k tr only ttl nl t l W (T1 & T2 & T3). unfold loop_turn. destruct (existsb _ _); [reflexivity|]. cbv zeta. set (tr1 := tr ++ _). destruct (t_eintr t || t_reload t).
  { destruct (t_running t); cbn [negb]; [|exact I]. destruct (t_reload t); [|exact W]. pose proof (sys_init_served k ttl only (t_es1 t) l tr1 W T1) as H.
    destruct (Main.sys_init k tr1 only ttl (t_es1 t) l) as [tr2 l2|tr2 c|tr2 c]; cbn [next]; [|exact I|contradiction]. rewrite (contexts_served l2 tr2 (proj2 H)). exact H. }
  set (nlread := (0 <=? nl) && t_nlready t). set (tr2 := if nlread then _ else _).
  assert (H : match (if nlread && (0 <? k tr1 (ANetlink nl)) then Main.sys_init k tr2 only ttl (t_es2 t) l else Go tr2 l) with Go _ l' => served l' | Quit _ _ => True | Crash _ _ => False end).
  { destruct (nlread && (0 <? k tr1 (ANetlink nl))); [|exact W]. apply sys_init_served; assumption. }
  destruct (if nlread && (0 <? k tr1 (ANetlink nl)) then Main.sys_init k tr2 only ttl (t_es2 t) l else Go tr2 l) as [tr3 l3|tr3 c|tr3 c]; cbn [next]; [|exact I|contradiction].
  assert (H4 : match (if t_poll t then Main.sys_init k tr3 only ttl (t_es3 t) l3 else Go tr3 l3) with Go _ l' => served l' | Quit _ _ => True | Crash _ _ => False end) by (destruct (t_poll t); [apply sys_init_served; assumption|exact H]).
  destruct (if t_poll t then Main.sys_init k tr3 only ttl (t_es3 t) l3 else Go tr3 l3) as [tr4 l4|tr4 c|tr4 c]; cbn [next]; [|exact I|contradiction].
  pose proof (serve_served k l4 tr4 H4) as H5. destruct (serve k tr4 l4) as [tr5 l5|tr5 c|tr5 c]; cbn [next]; tauto.
Qed.
Lemma loop_served : forall k only ttl nl ts tr l, served l -> Forall real_turn ts -> match main_loop k tr only ttl nl ts l with Go _ l' => served l' | Quit _ _ => True | Crash _ c => c = FdSet end.
Proof.
  intros k only ttl nl ts. induction ts as [|t ts IH]; intros tr l W T; cbn [main_loop]; [exact W|]. inversion_clear T as [|? ? T1 T2]. pose proof (turn_served k tr only ttl nl t l W T1) as H.
  destruct (loop_turn k tr only ttl nl t l) as [tr1 [l1|]|tr1 c|tr1 c]; cbn [next]; [|exact W|exact I|exact H]. apply IH; assumption.
Qed.
Lemma main_served : forall k only ttl es0 ts, real_scan es0 -> Forall real_turn ts -> match main k only ttl es0 ts with Crash _ c => c = FdSet | _ => True end.
Proof.
  intros k only ttl es0 ts R0 T. unfold main. assert (W0 : served []) by (repeat constructor). pose proof (sys_init_served k (ttl mod 256) only es0 [] [] W0 R0) as H.
  destruct (Main.sys_init k [] only (ttl mod 256) es0 []) as [tr l|tr c|tr c]; cbn [next]; [|exact I|contradiction]. destruct (netlink_init k tr) as [tr2 nl].
  pose proof (loop_served k only (ttl mod 256) nl ts tr2 l H T) as H2. destruct (main_loop k tr2 only (ttl mod 256) nl ts l) as [tr3 l3|tr3 c|tr3 c]; cbn [next]; [|exact I|exact H2].
  destruct (free_all_served k l3 tr3 (proj2 H2)) as (tr4 & ->). exact I.
Qed.

Lemma looping_served : forall k only ttl es0 ts nl tr l, real_scan es0 -> Forall real_turn ts -> looping k only ttl es0 ts nl tr l -> served l.
Proof.
  intros k only ttl es0 ts nl tr l R T (tr0 & l0 & tr1 & A & B & C). pose proof (sys_init_served k (ttl mod 256) only es0 [] [] (ltac:(repeat constructor)) R) as H. rewrite A in H.
  pose proof (loop_served k only (ttl mod 256) nl ts tr1 l0 H T) as H2. rewrite C in H2. exact H2.
Qed.

Definition kept_as (i : iface) (l : list iface) : Prop := exists j, In j l /\ i_name j = i_name i /\ i_addr j = i_addr i /\ i_sd j = i_sd i /\ i_mdns j = true /\ i_unused j = i_unused i.
Lemma serve1_served : forall k tr i, up i -> exists post o, serve1 k tr i = Go (tr ++ post) o /\
  (i_unused i = false -> exists r, In (AIo (i_sd i), r) post /\ (r <> 0 \/ exists j, o = Some j /\ kept_as i [j])) /\ (i_unused i = true -> o = Some i).
Proof.
  intros k tr i [M D]. unfold serve1. destruct (i_sd i <? 0) eqn:E; [lia|]. rewrite orb_false_r. destruct (i_unused i) eqn:U.
  { exists [], (Some i). rewrite app_nil_r. split; [reflexivity|]. split; [discriminate|auto]. }
  rewrite M. cbn [negb]. set (rc := k tr (AIo (i_sd i))). set (tr1 := tr ++ [(AIo (i_sd i), rc)]).
  assert (J : forall post, In (AIo (i_sd i), rc) ([(AIo (i_sd i), rc)] ++ post)) by (intros; left; reflexivity).
  destruct (rc =? 0) eqn:R; cbn [negb].
  - assert (W : kept_as i [i]) by (exists i; split; [left; reflexivity|]; auto 10). destruct (i_mdns6 i && (0 <=? i_sd6 i)).
    + destruct (negb _).
      * exists ([(AIo (i_sd i), rc)] ++ [(AIo (i_sd6 i), k tr1 (AIo (i_sd6 i)))] ++ [(AClose (i_sd6 i), k (tr1 ++ [(AIo (i_sd6 i), k tr1 (AIo (i_sd6 i)))]) (AClose (i_sd6 i)))]), (Some (lost6 i)).
        split; [unfold tr1; rewrite !app_assoc; reflexivity|]. split; [|discriminate]. intros _. exists rc. split; [apply J|]. right. exists (lost6 i). split; [reflexivity|]. exists (lost6 i). split; [left; reflexivity|]. cbn [lost6 i_name i_addr i_sd i_mdns i_unused]. auto 10.
      * exists ([(AIo (i_sd i), rc)] ++ [(AIo (i_sd6 i), k tr1 (AIo (i_sd6 i)))]), (Some i). split; [unfold tr1; rewrite !app_assoc; reflexivity|]. split; [|discriminate]. intros _. exists rc. split; [apply J|]. right. eauto.
    + exists [(AIo (i_sd i), rc)], (Some i). split; [reflexivity|]. split; [|discriminate]. intros _. exists rc. split; [left; reflexivity|]. right. eauto.
  - unfold free_iface. rewrite M. cbn [negb]. unfold io_if, close_if. destruct (0 <=? i_sd i) eqn:Q0; [|lia]. destruct (i_mdns6 i); [destruct (0 <=? i_sd6 i)|]; cbn [next];
      (eexists (_ :: _), None; split; [unfold tr1; rewrite <- !app_assoc; reflexivity|]; split; [|discriminate]; intros _; exists rc; split; [left; reflexivity|left; lia]).
Qed.
Lemma serve_each : forall k l tr, Forall up l -> exists post l', serve k tr l = Go (tr ++ post) l' /\
  forall i, In i l -> i_unused i = false -> exists r, In (AIo (i_sd i), r) post /\ (r <> 0 \/ kept_as i l').
Proof.
  intros k l. induction l as [|i l IH]; intros tr U; cbn [serve]; [exists [], []; rewrite app_nil_r; split; [reflexivity|intros ? []]|]. inversion_clear U as [|? ? U1 U2].
  destruct (serve1_served k tr i U1) as (p1 & o & -> & A & _). cbn [next]. destruct (IH (tr ++ p1) U2) as (p2 & l2 & -> & B). cbn [next]. exists (p1 ++ p2), (cons_opt o l2). split; [rewrite app_assoc; reflexivity|].
  intros x [<-|Ix] Ux.
  - destruct (A Ux) as (r & I1 & C). exists r. split; [apply in_or_app; auto|]. destruct C as [C|(j & -> & j' & [<-|[]] & C)]; [auto|right]. exists j. split; [left; reflexivity|exact C].
  - destruct (B x Ix Ux) as (r & I2 & C). exists r. split; [apply in_or_app; auto|]. destruct C as [C|(j & Ij & C)]; [auto|right]. exists j. split; [destruct o; [right|]; exact Ij|exact C].
Qed.
Lemma turn_isolated : forall k only ttl es0 ts nl tr l t, real_scan es0 -> Forall real_turn ts -> looping k only ttl es0 ts nl tr l -> plain_turn t ->
  match loop_turn k tr only (ttl mod 256) nl t l with
  | Go tr' o => exists post l', tr' = tr ++ post /\ o = Some l' /\ forall i, In i l -> i_unused i = false -> exists r, In (AIo (i_sd i), r) post /\
      (r <> 0 \/ exists j, In j l' /\ i_name j = i_name i /\ i_addr j = i_addr i /\ i_sd j = i_sd i /\ i_mdns j = true /\ i_unused j = false)
  | Quit _ _ => False
  | Crash _ c => c = FdSet
  end.
Proof.
  intros k only ttl es0 ts nl tr l t R T L (P1 & P2 & P3 & P4). destruct (looping_served _ _ _ _ _ _ _ _ R T L) as [_ U].
  unfold loop_turn. destruct (existsb _ _); [reflexivity|]. rewrite P1, P2, P3, P4. cbn [orb]. rewrite andb_false_r. cbn [andb next]. cbv zeta.
  destruct (serve_each k l (tr ++ [(ASelect (watched nl l), k tr (ASelect (watched nl l)))]) U) as (post & l' & -> & A). cbn [next].
  eexists (_ :: post), l'. split; [rewrite <- app_assoc; reflexivity|]. split; [reflexivity|]. intros i Ii Ui. destruct (A i Ii Ui) as (r & Ir & C). exists r. split; [right; exact Ir|].
  destruct C as [C|(j & C)]; [auto|right]. exists j. rewrite Ui in C. exact C.
Qed.
Lemma looping_up : forall k only ttl es0 ts nl tr l i, real_scan es0 -> Forall real_turn ts -> looping k only ttl es0 ts nl tr l -> In i l -> 0 <= i_sd i /\ i_mdns i = true.
Proof. intros k only ttl es0 ts nl tr l i R T L Ii. destruct (looping_served _ _ _ _ _ _ _ _ R T L) as [_ U]. rewrite Forall_forall in U. destruct (U i Ii). auto. Qed.

Lemma looping_sound : forall k only ttl es0 ts nl tr l, honest k -> looping k only ttl es0 ts nl tr l -> sound (ttl mod 256) tr /\ Permutation (opened tr) (all_fds l ++ fd_of nl) /\ Forall (ready (ttl mod 256) tr) l.
Proof.
  intros k only ttl es0 ts nl tr l Hk (tr0 & l0 & tr1 & A & B & C). set (b := ttl mod 256) in *. assert (S0 : sound b []) by (split; [apply proper_nil|constructor]).
  pose proof (sys_init_spec b k [] only es0 [] [] Hk S0 ltac:(constructor) ltac:(constructor) ltac:(constructor)) as H. rewrite A in H. cbn [loop_ok] in H.
  destruct H as (S1 & O1 & _ & G1 & R1). rewrite app_nil_r in O1. destruct (netlink_spec b k tr0 tr1 nl Hk S1 B) as (S2 & O2 & K2).
  assert (O2' : Permutation (opened tr1) (all_fds l0 ++ fd_of nl)) by (rewrite O2; apply (Permutation_trans (Permutation_app_comm _ _)); apply Permutation_app_tail; exact O1).
  assert (R2 : Forall (ready b tr1) l0) by (apply (ready_all b tr0 tr1 l0 []); [|exact R1]; rewrite app_nil_r; apply (keeps_less _ (opened tr0)); [intros x I; apply (Permutation_in _ (Permutation_sym O1)); exact I|exact K2]).
  pose proof (main_loop_spec b k only nl ts tr1 l0 Hk S2 O2' G1 R2) as H. rewrite C in H. cbn [loop_ok] in H. tauto.
Qed.
Lemma in_fd_of : forall x fd, In fd (fd_of x) <-> fd = x /\ 0 <= fd.
Proof. intros x fd. unfold fd_of. destruct (0 <=? x) eqn:E; cbn [In]; split; intros H; try lia; intuition lia. Qed.
Lemma looping_leaks : forall k only ttl es0 ts nl tr l, honest k -> looping k only ttl es0 ts nl tr l -> NoDup (opened tr) /\
  forall fd, In fd (opened tr) <-> 0 <= fd /\ (fd = nl \/ exists i, In i l /\ (fd = i_sd i \/ fd = i_sd6 i)).
Proof.
  intros k only ttl es0 ts nl tr l Hk L. destruct (looping_sound _ _ _ _ _ _ _ _ Hk L) as ([_ N] & O & _). split; [exact N|]. intros fd.
  assert (E : In fd (opened tr) <-> In fd (all_fds l ++ fd_of nl)) by (split; apply Permutation_in; [exact O|apply Permutation_sym; exact O]). rewrite E, in_app_iff, in_fd_of. unfold all_fds. rewrite in_concat. split.
  - intros [(x & Ix & If)|[? ?]]; [|auto]. apply in_map_iff in Ix as (i & <- & Ii). unfold fds in If. apply in_app_or in If. rewrite !in_fd_of in If. split; [intuition|]. right. exists i. intuition.
  - intros (P & [->|(i & Ii & F)]); [auto|]. left. exists (fds i). split; [apply in_map; exact Ii|]. unfold fds. apply in_or_app. rewrite !in_fd_of. intuition.
Qed.
Lemma looping_own : forall k only ttl es0 ts nl tr l i, honest k -> looping k only ttl es0 ts nl tr l -> In i l ->
  (0 <= i_sd i -> prepared tr (i_sd i) 2 (i_name i) (if ttl mod 256 =? 0 then 1 else ttl mod 256)) /\ (0 <= i_sd6 i -> prepared tr (i_sd6 i) 10 (i_name i) (if ttl mod 256 =? 0 then 1 else ttl mod 256)).
Proof. intros k only ttl es0 ts nl tr l i Hk L Ii. destruct (looping_sound _ _ _ _ _ _ _ _ Hk L) as (_ & _ & R). rewrite Forall_forall in R. exact (R i Ii). Qed.

Lemma main_sound : forall k only ttl es0 ts, honest k -> sound (ttl mod 256) (so_far (main k only ttl es0 ts)).
Proof.
  intros k only ttl es0 ts Hk. pose proof (main_spec k only ttl es0 ts Hk) as H. destruct (main k only ttl es0 ts) as [tr a|tr c|tr c]; cbn [so_far]; [contradiction|destruct c; tauto|exact (proj1 H)].
Qed.
Lemma main_clean : forall k only ttl es0 ts, honest k -> clean (so_far (main k only ttl es0 ts)).
Proof. intros k only ttl es0 ts Hk pre c r post E. exact (proj1 (proj1 (main_sound k only ttl es0 ts Hk) pre c r post E)). Qed.
Lemma main_closed : forall k only ttl es0 ts tr, honest k -> main k only ttl es0 ts = Quit tr 0 -> opened tr = [].
Proof. intros k only ttl es0 ts tr Hk E. pose proof (main_spec k only ttl es0 ts Hk) as H. rewrite E in H. tauto. Qed.
Lemma main_ends : forall k only ttl es0 ts, honest k -> match main k only ttl es0 ts with Go _ _ => False | Quit tr c => c = 0 \/ c = 1 /\ refused tr 2 | Crash _ _ => True end.
Proof. intros k only ttl es0 ts Hk. pose proof (main_spec k only ttl es0 ts Hk) as H. destruct (main k only ttl es0 ts) as [tr a|tr c|tr c]; [exact H|destruct c; tauto|exact I]. Qed.
Lemma main_alive : forall k only ttl es0 ts tr c, honest k -> real_scan es0 -> Forall real_turn ts -> main k only ttl es0 ts = Crash tr c -> c = FdSet /\ exists f fd, In (ASocket f, fd) tr /\ 1024 <= fd.
Proof.
  intros k only ttl es0 ts tr c Hk R T E. pose proof (main_served k only ttl es0 ts R T) as H. pose proof (main_spec k only ttl es0 ts Hk) as H2. rewrite E in H, H2. subst c. split; [reflexivity|].
  destruct H2 as [_ H2]. destruct (H2 eq_refl) as (fd & I & L). destruct (opened_from tr fd I) as (f & J). eauto.
Qed.
Lemma main_io : forall k only ttl es0 ts pre fd r post, honest k -> so_far (main k only ttl es0 ts) = pre ++ (AIo fd, r) :: post ->
  exists family name, prepared pre fd family name (if ttl mod 256 =? 0 then 1 else ttl mod 256).
Proof. intros k only ttl es0 ts pre fd r post Hk E. exact (proj2 (proj1 (main_sound k only ttl es0 ts Hk) pre _ r post E) fd eq_refl). Qed.
