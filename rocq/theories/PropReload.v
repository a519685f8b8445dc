(* C116: the services survive a change of the addresses. *)
From Coq Require Import String.
From Verif Require Import Base SpecDns SpecMap SpecTxt Hash Wire Rec Qry Out In Api DaemonInv SpecDaemon SpecAddr Lib Conf Load SpecConf SpecLoad Scenario FactsLoad FactsLoad2 FactsLoad3 PropLoad PropAddr SpecReload FactsReload.
Open Scope list_scope.

(* Loading the same files again into a daemon that serves them, now with other
   addresses on the interface: the services are served with those.  Records that
   are not addresses are the very same, none is probed for again and none is
   made; addresses still there are kept, and those no longer there withdrawn
   (or dropped, while still being probed for).  Unless a name with
   several pointers shares its bucket, as in C73, or an address comes back while
   it is being withdrawn. *)
Theorem C116_reload_partial : forall d e ifs ifs' ifname hostname l, reach d -> served d ifs ifname hostname l -> 0 <= fst (e_now e) -> e_ifs e = Some ifs' ->
  well_named hostname l -> apart hostname l -> none_leaving d ifs' ifname ->
  exists d', load_files d e ifname hostname l = Ok d' /\ reach d' /\ served d' ifs' ifname hostname l /\
    (forall r X, record d r X -> ~ is_addr (rr X) -> exists Y, record d' r Y /\ same_record X Y) /\
    (forall r Y, record d' r Y -> ~ is_addr (rr Y) -> exists X, record d r X /\ same_record X Y) /\
    (forall r X, record d r X -> is_addr (rr X) -> has_place ifs' ifname (rr X) -> exists Y, record d' r Y /\ rr Y = rr X) /\
    (forall r X, record d r X -> is_addr (rr X) -> ~ has_place ifs' ifname (rr X) -> ~ in_probing X -> exists Y, record d' r Y /\ withdrawn Y).
Proof. exact reloaded. Qed.
Print Assumptions C116_reload_partial.

(* Loading into a daemon without records leaves one that serves the files, and
   no address is being withdrawn. *)
Theorem C116_first_partial : forall d e ifs ifname hostname l, reach d -> (forall r X, ~ record d r X) -> 0 <= fst (e_now e) -> e_ifs e = Some ifs -> well_named hostname l -> apart hostname l ->
  exists d', load_files d e ifname hostname l = Ok d' /\ reach d' /\ served d' ifs ifname hostname l /\ forall ifs', none_leaving d' ifs' ifname.
Proof. exact services_served. Qed.
Print Assumptions C116_first_partial.

(* The interface loses 10.0.0.1, keeps 10.0.0.2, and gets 10.0.0.7; the IPv6
   address goes. *)
Definition cards2 : list ifaddr := [mkif eth0 AF_INET [10; 0; 0; 2]; mkif (ascii_text "lo") AF_INET [127; 0; 0; 1]; mkif eth0 AF_INET [10; 0; 0; 7]].
Definition later : env := mkenv (100, 0) 0 (Some cards2) (fun _ => false).
Example C116_case : exists d, load_files (mdnsd_new (1, 0) 1 1400) when eth0 gate files = Ok d /\ reach d /\ served d cards eth0 gate files /\ none_leaving d cards2 eth0 /\
  well_named gate files /\ apart gate files /\
  offers d (local gate) QTYPE_A [10; 0; 0; 1] /\ exists d', load_files d later eth0 gate files = Ok d' /\ ~ offers d' (local gate) QTYPE_A [10; 0; 0; 1] /\ offers d' (local gate) QTYPE_A [10; 0; 0; 7].
Proof.
  pose proof C73_case as (K & N & W & A). destruct (services_served (mdnsd_new (1, 0) 1 1400) when cards eth0 gate files K N ltac:(cbn; lia) eq_refl W A) as (d & E & Kd & Sd & Nl).
  exists d. split; [exact E|]. split; [exact Kd|]. split; [exact Sd|]. split; [exact (Nl cards2)|]. split; [exact W|]. split; [exact A|].
  pose proof (sv_complete _ _ _ _ _ Sd (hd (mksrec None None 0 None None []) files) (or_introl eq_refl)) as (_ & _ & _ & _ & _ & C & _). split.
  { apply C. exists (mkif eth0 AF_INET [10; 0; 0; 1]). split; [left; reflexivity|repeat split]. }
  destruct (reloaded d later cards cards2 eth0 gate files Kd Sd ltac:(cbn; lia) eq_refl W A (Nl cards2)) as (d' & E' & _ & Sd' & _).
  exists d'. split; [exact E'|]. pose proof (sv_complete _ _ _ _ _ Sd' (hd (mksrec None None 0 None None []) files) (or_introl eq_refl)) as (_ & _ & _ & _ & _ & C' & _). split.
  - intros O. apply C' in O as (i & [<-|[<-|[<-|[]]]] & B1 & B2 & B3); discriminate.
  - apply C'. exists (mkif eth0 AF_INET [10; 0; 0; 7]). split; [right; right; left; reflexivity|repeat split].
Qed.

(* An address that goes and is back before its withdrawal has been sent is lost:
   the service is then without an address, although the interface has one. *)
Definition one : list conf_srec := [mksrec None None 80 None None []].
Definition card : list ifaddr := [mkif eth0 AF_INET [10; 0; 0; 1]].
Definition with_ (l : list ifaddr) : env := mkenv (1, 0) 0 (Some l) (fun _ => false).
Theorem C116_refuted : ~ (forall d e ifs ifs' ifname hostname l d', reach d -> served d ifs ifname hostname l -> 0 <= fst (e_now e) -> e_ifs e = Some ifs' ->
  well_named hostname l -> apart hostname l -> load_files d e ifname hostname l = Ok d' -> served d' ifs' ifname hostname l).
Proof.
  intros C. assert (W : well_named gate one) by (apply well_named_by; vm_compute; reflexivity). assert (A : apart gate one) by (apply apart_by; vm_compute; reflexivity).
  assert (K0 : reach (mdnsd_new (1, 0) 1 1400)) by (apply reach_new; cbn; lia). assert (T : forall l, 0 <= fst (e_now (with_ l))) by (cbn; lia).
  destruct (services_served (mdnsd_new (1, 0) 1 1400) (with_ card) card eth0 gate one K0 ltac:(intros r X Q; discriminate Q) (T _) eq_refl W A) as (d1 & E1 & K1 & S1 & N1).
  destruct (reloaded d1 (with_ []) card [] eth0 gate one K1 S1 (T _) eq_refl W A (N1 [])) as (d2 & E2 & K2 & S2 & _).
  destruct (load_files_safe one d2 (with_ card) eth0 gate K2 (T _)) as (d3 & E3 & K3).
  pose proof (sv_complete _ _ _ _ _ (C d2 (with_ card) [] card eth0 gate one d3 K2 S2 (T _) eq_refl W A E3) _ (or_introl eq_refl)) as (_ & _ & _ & _ & _ & Q & _).
  assert (O : offers d3 (local gate) QTYPE_A [10; 0; 0; 1]) by (apply Q; exists (mkif eth0 AF_INET [10; 0; 0; 1]); split; [left; reflexivity|repeat split]).
  apply offers_by in O; [|exact K3].
  assert (V : match load_files (mdnsd_new (1, 0) 1 1400) (with_ card) eth0 gate one with
              | Ok d1 => match load_files d1 (with_ []) eth0 gate one with Ok d2 => match load_files d2 (with_ card) eth0 gate one with Ok d3 => offersb d3 (local gate) QTYPE_A [10; 0; 0; 1] | _ => true end | _ => true end
              | _ => true end = false) by (vm_compute; reflexivity).
  rewrite E1, E2, E3 in V. congruence.
Qed.
Print Assumptions C116_refuted.
