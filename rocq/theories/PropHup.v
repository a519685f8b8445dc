(* C117: a full reload (SIGHUP) and the services. *)
From Coq Require Import String.
From Verif Require Import Base SpecDns SpecMap SpecTxt Hash Wire Rec Qry Out In Api DaemonInv SpecDaemon SpecAddr Lib Conf Load SpecConf SpecLoad SpecSound Scenario FactsLoad FactsLoad2 FactsLoad3 PropLoad SpecReload FactsReload FactsHup.
Open Scope list_scope.

(* Whatever the daemon published before, after clearing its records and loading
   the files it serves what they say.  From then on, until a call makes or
   changes records, every record in its responses is one of those, as it was
   loaded or withdrawn.  As in C73, names with several pointers are to
   have buckets to themselves. *)
Theorem C117_reload_partial : forall d e ifs ifname hostname l, reach d -> 0 <= fst (e_now e) -> e_ifs e = Some ifs -> well_named hostname l -> apart hostname l ->
  exists d1 d2, step d e OClear = Ok (d1, RUnit) /\ load_files d1 e ifname hostname l = Ok d2 /\ reach d2 /\ served d2 ifs ifname hostname l /\
  forall h d3, history d2 h d3 -> serving h -> forall e3 d4 m n, legal d3 e3 OOut -> step d3 e3 OOut = Ok (d4, RMsg m n) -> o_qr m = true ->
  forall sec nm ty cl ttl dt, says m (IRecord sec nm ty cl ttl dt) ->
  exists s a, In s l /\ part_of ifs ifname hostname s a /\ a_name a = nm /\ a_type a = ty /\ a_copy a = dt /\ (ttl = a_ttl a \/ ttl = 0).
Proof. exact hup_only. Qed.
Print Assumptions C117_reload_partial.

(* The daemon serves the three services; then the file of the printer goes. *)
Definition less : list conf_srec := firstn 2 files.
Example C117_case : exists d, load_files (mdnsd_new (1, 0) 1 1400) when eth0 gate files = Ok d /\ reach d /\ served d cards eth0 gate files /\ well_named gate less /\ apart gate less /\
  exists d1 d2, step d when OClear = Ok (d1, RUnit) /\ load_files d1 when eth0 gate less = Ok d2 /\ served d2 cards eth0 gate less.
Proof.
  pose proof C73_case as (K & N & W & A). destruct (services_served (mdnsd_new (1, 0) 1 1400) when cards eth0 gate files K N ltac:(cbn; lia) eq_refl W A) as (d & E & Kd & Sd & _).
  assert (W2 : well_named gate less) by (apply well_named_by; vm_compute; reflexivity). assert (A2 : apart gate less) by (apply apart_by; vm_compute; reflexivity).
  exists d. split; [exact E|]. split; [exact Kd|]. split; [exact Sd|]. split; [exact W2|]. split; [exact A2|].
  destruct (hup_only d when cards eth0 gate less Kd ltac:(cbn; lia) eq_refl W2 A2) as (d1 & d2 & E1 & E2 & _ & S2 & _). exists d1, d2. auto.
Qed.

(* So a service whose file has gone is not withdrawn: other hosts are never told,
   and keep it until its time is over. *)
Theorem C117_refuted : ~ (forall d e ifs ifname hostname l0 l s d1 d2, reach d -> served d ifs ifname hostname l0 -> In s l0 -> ~ In s l -> 0 <= fst (e_now e) -> e_ifs e = Some ifs ->
  well_named hostname l0 -> apart hostname l0 -> well_named hostname l -> apart hostname l -> step d e OClear = Ok (d1, RUnit) -> load_files d1 e ifname hostname l = Ok d2 ->
  exists h d3 e3 d4 m n sec ty cl dt, history d2 h d3 /\ serving h /\ legal d3 e3 OOut /\ step d3 e3 OOut = Ok (d4, RMsg m n) /\ o_qr m = true /\
    says m (IRecord sec (instance hostname s) ty cl 0 dt)).
Proof.
  intros C. destruct C117_case as (d & E & Kd & Sd & W2 & A2 & _). pose proof C73_case as (_ & _ & W & A).
  destruct (hup_only d when cards eth0 gate less Kd ltac:(cbn; lia) eq_refl W2 A2) as (d1 & d2 & E1 & E2 & _ & _ & Only).
  set (p := nth 2 files (mksrec None None 0 None None [])) in *.
  destruct (C d when cards eth0 gate files less p d1 d2 Kd Sd) as (h & d3 & e3 & d4 & m & n & sec & ty & cl & dt & Hh & Sv & L & E3 & Qr & Sy); try assumption; try reflexivity.
  - right. right. left. reflexivity.
  - intros [Q|[Q|[]]]; vm_compute in Q; discriminate Q.
  - cbn; lia.
  - destruct (Only h d3 Hh Sv e3 d4 m n L E3 Qr sec _ ty cl 0 dt Sy) as (s & a & Is & Pa & Nm & _).
    pose proof (part_role _ _ _ less s a Is Pa) as Ro. apply role_known in Ro. unfold known in Ro. rewrite Nm in Ro.
    assert (Q : mem (instance gate p) (meta :: flat_map (names_of gate) less) = false) by (vm_compute; reflexivity). apply mem_in in Q. contradiction.
Qed.
Print Assumptions C117_refuted.
