(* Property theorems C53: the addresses of a host.
   Vocabulary: SpecDaemon.v, SpecAddr.v.  Model: Rec.v, Api.v. *)
From Verif Require Import Base Hash Wire Rec Qry Out In Api SpecDaemon SpecAddr Scenario FactsAddr.

(* ---- C53 ---- *)
(* The records of the host that are not withdrawn carry exactly the addresses
   given. *)
Theorem C53_exact : forall d e o d' x host ty l, reach d -> sets_addresses o host ty l -> step d e o = Ok (d', x) -> none_withdrawn d host ty ->
  forall ip, offers d' host ty ip <-> In ip l.
Proof. exact addresses_exact. Qed.
Print Assumptions C53_exact.

(* No address appears twice, if none did. *)
Theorem C53_once : forall d e o d' x host ty l, reach d -> sets_addresses o host ty l -> step d e o = Ok (d', x) -> once d host ty -> once d' host ty.
Proof. exact addresses_once. Qed.
Print Assumptions C53_once.

(* Records of another name or type, and of the host with a wanted address, stay
   as they are; new records are shared, of this name and type, with an address
   given. *)
Theorem C53_others : forall d e o d' x host ty l, reach d -> sets_addresses o host ty l -> step d e o = Ok (d', x) ->
  (forall r X, record d r X -> ~ (a_name (rr X) = host /\ a_type (rr X) = ty /\ ~ In (address ty X) l) -> exists Y, record d' r Y /\ unchanged X Y) /\
  (forall r Y, record d' r Y -> (forall X, ~ record d r X) -> of_host d' host ty r Y /\ ~ withdrawn Y /\ unique Y = 0 /\ In (address ty Y) l).
Proof. exact addresses_others. Qed.
Print Assumptions C53_others.

(* A record with an address not given is withdrawn, or removed at once if it was
   still being probed. *)
Theorem C53_stale : forall d e o d' x host ty l r X, reach d -> sets_addresses o host ty l -> step d e o = Ok (d', x) -> of_host d host ty r X -> ~ In (address ty X) l ->
  (in_probing X /\ forall Y, ~ record d' r Y) \/ (~ in_probing X /\ exists Y, record d' r Y /\ withdrawn Y).
Proof. exact addresses_stale. Qed.
Print Assumptions C53_stale.

(* The same call again neither makes, changes nor removes a record. *)
Theorem C53_again : forall d e o d1 x1 e2 d2 x2 host ty l, reach d -> legal d e o -> sets_addresses o host ty l -> step d e o = Ok (d1, x1) -> step d1 e2 o = Ok (d2, x2) ->
  (forall r X, record d1 r X -> exists Y, record d2 r Y /\ unchanged X Y) /\ (forall r Y, record d2 r Y -> exists X, record d1 r X).
Proof. exact addresses_again. Qed.
Print Assumptions C53_again.

(* mdnsd_set_interface_addresses does this for every host name that has an
   address record, with the addresses of the interface; records that are not
   addresses stay as they are, and no other name gets an address. *)
Theorem C53_interface : forall d e ifname l d' x, reach d -> e_ifs e = Some l -> step d e (OSetIfaddrs ifname) = Ok (d', x) ->
  (forall host, (exists r X, of_host d host QTYPE_A r X \/ of_host d host QTYPE_AAAA r X) ->
     (none_withdrawn d host QTYPE_A -> forall ip, offers d' host QTYPE_A ip <-> on_interface l ifname AF_INET ip) /\
     (none_withdrawn d host QTYPE_AAAA -> forall ip, offers d' host QTYPE_AAAA ip <-> on_interface l ifname AF_INET6 ip)) /\
  (forall r X, record d r X -> a_type (rr X) <> QTYPE_A -> a_type (rr X) <> QTYPE_AAAA -> exists Y, record d' r Y /\ unchanged X Y) /\
  (forall r Y, record d' r Y -> (forall X, ~ record d r X) -> exists r0 X0, record d r0 X0 /\ a_name (rr X0) = a_name (rr Y) /\ (a_type (rr X0) = QTYPE_A \/ a_type (rr X0) = QTYPE_AAAA)).
Proof. exact interface_addresses. Qed.
Print Assumptions C53_interface.

(* ---- cases ---- *)
Definition offersb (d : daemon) (host : list Z) (ty : Z) (ip : list Z) : bool :=
  existsb (fun r => match hp (R d) r with
                    | Some X => bytes_eqb (a_name (rr X)) host && (a_type (rr X) =? ty) && negb (a_ttl (rr X) =? 0) && bytes_eqb (address ty X) ip
                    | None => false
                    end) (seq 0 (fresh (R d))).
Lemma offers_by : forall d host ty ip, reach d -> (offers d host ty ip <-> offersb d host ty ip = true).
Proof.
  intros d host ty ip K. unfold offersb, offers, of_host, record, withdrawn. rewrite existsb_exists. destruct (FactsCalls.reach_dinv d K) as (qs & H & _). split.
  - intros (r & X & (EX & N & T) & W & A). exists r. split; [apply in_seq; split; [apply Nat.le_0_l|]; cbn [Nat.add]; apply (RecInv.qk_fresh _ _ (RecSafe.ri_q _ _ H)); congruence|].
    rewrite EX, !andb_true_iff, negb_true_iff, !Lemmas.bytes_eqb_eq, Z.eqb_eq, Z.eqb_neq. auto.
  - intros (r & _ & B). destruct (hp (R d) r) as [X|] eqn:EX; [|discriminate]. rewrite !andb_true_iff, negb_true_iff, !Lemmas.bytes_eqb_eq, Z.eqb_eq, Z.eqb_neq in B. exists r, X. tauto.
Qed.
Definition none_withdrawnb (d : daemon) (host : list Z) (ty : Z) : bool :=
  forallb (fun r => match hp (R d) r with Some X => negb (a_ttl (rr X) =? 0) || negb (bytes_eqb (a_name (rr X)) host && (a_type (rr X) =? ty)) | None => true end) (seq 0 (fresh (R d))).
Lemma none_withdrawn_by : forall d host ty, reach d -> none_withdrawnb d host ty = true -> none_withdrawn d host ty.
Proof.
  intros d host ty K B r X (EX & N & T) W. unfold none_withdrawnb in B. rewrite forallb_forall in B. destruct (FactsCalls.reach_dinv d K) as (qs & H & _). unfold record, withdrawn in *.
  specialize (B r ltac:(apply in_seq; split; [apply Nat.le_0_l|]; cbn [Nat.add]; apply (RecInv.qk_fresh _ _ (RecSafe.ri_q _ _ H)); congruence)). rewrite EX, W, N, T, Lemmas.bytes_eqb_refl, !Z.eqb_refl in B. discriminate B.
Qed.

(* Host 97 moves from .1 and .2 to .2 and .3; host 98 and a service beside it. *)
Definition moving : list (tv * op) :=
  [((1, 0), OShared (nm 97) QTYPE_A 60); ((1, 0), OSetIp 0 [10; 0; 0; 1]); ((1, 0), OShared (nm 97) QTYPE_A 60); ((1, 0), OSetIp 1 [10; 0; 0; 2]);
   ((1, 0), OShared (nm 98) QTYPE_A 60); ((1, 0), OSetIp 2 [10; 0; 0; 9]); ((1, 0), OShared (nm 115) QTYPE_PTR 60); ((1, 0), OSetHost 3 (nm 105));
   ((1, 0), OOut); ((3, 0), OOut); ((5, 0), OOut); ((7, 0), OOut)].
Definition moves : op := OSetAddrs (nm 97) [[10; 0; 0; 2]; [10; 0; 0; 3]].
Definition moved : daemon := story 1400 (moving ++ [((8, 0), moves)]).
Example C53_case : reach (story 1400 moving) /\ sets_addresses moves (nm 97) QTYPE_A [[10; 0; 0; 2]; [10; 0; 0; 3]] /\ step (story 1400 moving) (at_ (8, 0)) moves = Ok (moved, RUnit) /\
  none_withdrawn (story 1400 moving) (nm 97) QTYPE_A /\ offers (story 1400 moving) (nm 97) QTYPE_A [10; 0; 0; 1] /\ ~ offers moved (nm 97) QTYPE_A [10; 0; 0; 1] /\ offers moved (nm 97) QTYPE_A [10; 0; 0; 3] /\
  offers moved (nm 98) QTYPE_A [10; 0; 0; 9].
Proof.
  split; [apply story_reach|]. split; [left; split; reflexivity|]. split; [vm_compute; reflexivity|]. split; [apply none_withdrawn_by; [apply story_reach|vm_compute; reflexivity]|].
  split; [apply offers_by; [apply story_reach|vm_compute; reflexivity]|]. split; [|split; apply offers_by; try apply story_reach; vm_compute; reflexivity].
  intros K. apply offers_by in K; [|apply story_reach]. vm_compute in K. discriminate K.
Qed.

(* The interface has the address .3 only; both hosts get it. *)
Definition eth : list ifaddr := [mkif [108; 111] AF_INET [127; 0; 0; 1]; mkif [101] AF_INET [10; 0; 0; 3]].
Example C53_case_interface : exists d', step (story 1400 moving) (mkenv (8, 0) 0 (Some eth) (fun _ => false)) (OSetIfaddrs [101]) = Ok (d', RUnit) /\
  (exists r X, of_host (story 1400 moving) (nm 98) QTYPE_A r X) /\ none_withdrawn (story 1400 moving) (nm 98) QTYPE_A /\ on_interface eth [101] AF_INET [10; 0; 0; 3] /\ ~ on_interface eth [101] AF_INET [127; 0; 0; 1].
Proof.
  eexists. split; [vm_compute; reflexivity|]. split; [exists 2%nat; eexists; split; [vm_compute; reflexivity|split; reflexivity]|]. split; [apply none_withdrawn_by; [apply story_reach|vm_compute; reflexivity]|]. split.
  - exists (mkif [101] AF_INET [10; 0; 0; 3]). split; [right; left; reflexivity|repeat split].
  - intros (i & [<-|[<-|[]]] & N & F & A); discriminate.
Qed.

Definition back : op := OSetAddrs (nm 97) [[10; 0; 0; 1]].
Definition lost : daemon := story 1400 (moving ++ [((8, 0), moves); ((8, 0), back)]).
(* While the withdrawal of an address waits, giving the address again has no
   effect: the record is taken for present and stays withdrawn.  So the theorem
   needs its hypothesis. *)
Theorem C53_refuted : ~ (forall d e o d' x host ty l, reach d -> legal d e o -> sets_addresses o host ty l -> step d e o = Ok (d', x) -> forall ip, In ip l -> offers d' host ty ip).
Proof.
  intros K. assert (Rm : reach moved) by exact (story_reach 1400 (moving ++ [((8, 0), moves)])). assert (Rl : reach lost) by exact (story_reach 1400 (moving ++ [((8, 0), moves); ((8, 0), back)])).
  assert (L : legal moved (at_ (8, 0)) back) by (apply legalb_ok; vm_compute; reflexivity). assert (E : step moved (at_ (8, 0)) back = Ok (lost, RUnit)) by (vm_compute; reflexivity).
  assert (S : sets_addresses back (nm 97) QTYPE_A [[10; 0; 0; 1]]) by (left; split; reflexivity).
  pose proof (K moved (at_ (8, 0)) back lost RUnit (nm 97) QTYPE_A [[10; 0; 0; 1]] Rm L S E [10; 0; 0; 1] (or_introl eq_refl)) as B. apply (offers_by lost (nm 97) QTYPE_A [10; 0; 0; 1] Rl) in B. vm_compute in B. discriminate B.
Qed.
Print Assumptions C53_refuted.
