(* C73: what the .service files publish. *)
From Coq Require Import String.
From Verif Require Import Base SpecDns SpecMap SpecTxt Hash Wire Rec Qry Out In Api DaemonInv SpecDaemon SpecAddr Lib Conf Load SpecConf SpecLoad Scenario FactsLoad FactsLoad2 FactsLoad3.
Open Scope list_scope.

(* Loading any services into any daemon is safe *)
Theorem C73_safe : forall l d e ifname hostname, reach d -> 0 <= fst (e_now e) -> exists d', load_files d e ifname hostname l = Ok d' /\ reach d'.
Proof. exact load_files_safe. Qed.
Print Assumptions C73_safe.

(* Loaded into a daemon without records, every service has all its records, every
   record belongs to a service, and none but addresses is there twice, unless
   a name with several pointers shares its bucket of the table of records with a
   name of another kind. *)
Theorem C73_services_partial : forall d e ifs ifname hostname l, reach d -> (forall r X, ~ record d r X) -> 0 <= fst (e_now e) -> e_ifs e = Some ifs ->
  well_named hostname l -> apart hostname l ->
  exists d', load_files d e ifname hostname l = Ok d' /\ reach d' /\ (forall s, In s l -> complete d' ifs ifname hostname s) /\
    (forall r X, record d' r X -> exists s, In s l /\ part_of ifs ifname hostname s (rr X)) /\ no_double d'.
Proof. exact services. Qed.
Print Assumptions C73_services_partial.

(* Three services, one with an alias, two on this host *)
Definition gate : list Z := ascii_text "gate".
Definition eth0 : list Z := ascii_text "eth0".
Definition cards : list ifaddr := [mkif eth0 AF_INET [10; 0; 0; 1]; mkif (ascii_text "lo") AF_INET [127; 0; 0; 1]; mkif eth0 AF_INET6 [254; 128; 0; 0; 0; 0; 0; 0; 0; 0; 0; 0; 0; 0; 0; 1]; mkif eth0 AF_INET [10; 0; 0; 2]].
Definition files : list conf_srec :=
  [mksrec None None 80 None (Some (ascii_text "web.local")) [ascii_text "path=/"; ascii_text "void"; ascii_text "path=/x"];
   mksrec (Some (ascii_text "_ssh._tcp")) (Some (ascii_text "Shell")) 22 None None [];
   mksrec None (Some (ascii_text "Printer")) 631 (Some (ascii_text "printer.lan.")) None [ascii_text "paper=A4"]].
Definition when : env := mkenv (1, 0) 0 (Some cards) (fun _ => false).
Example C73_case : reach (mdnsd_new (1, 0) 1 1400) /\ (forall r X, ~ record (mdnsd_new (1, 0) 1 1400) r X) /\ well_named gate files /\ apart gate files.
Proof.
  split; [apply reach_new; cbn; lia|]. split; [intros r X E; discriminate E|]. split; [apply well_named_by; vm_compute; reflexivity|apply apart_by; vm_compute; reflexivity].
Qed.

(* A single service always has all its records. *)
Theorem C73_one : forall d e ifs ifname hostname s, reach d -> (forall r X, ~ record d r X) -> 0 <= fst (e_now e) -> e_ifs e = Some ifs ->
  well_named hostname [s] -> service_type s <> meta ->
  exists d', load d e ifname hostname s = Ok d' /\ reach d' /\ complete d' ifs ifname hostname s /\ (forall r X, record d' r X -> part_of ifs ifname hostname s (rr X)) /\ no_double d'.
Proof. exact service_alone. Qed.
Print Assumptions C73_one.
(* Here the host is in the bucket of the list of types. *)
Example C73_one_case : let s := mksrec (Some (ascii_text "_http._tcp")) None 80 None None [] in
  rbucket (target (ascii_text "km") s) = rbucket meta /\ well_named (ascii_text "km") [s] /\ service_type s <> meta.
Proof. cbv zeta. split; [vm_compute; reflexivity|]. split; [apply well_named_by; vm_compute; reflexivity|]. intros Q. vm_compute in Q. discriminate Q. Qed.

(* With more services records can be missing: a third type of service on a host whose
   name falls into the bucket of the name of the list of types is not listed. *)
Definition km : list Z := ascii_text "km".
Definition three : list conf_srec := map (fun t => mksrec (Some (ascii_text t)) None 80 None None []) ["_http._tcp"; "_ssh._tcp"; "_ftp._tcp"]%string.
Theorem C73_refuted : exists d e ifs ifname hostname l d' s, reach d /\ (forall r X, ~ record d r X) /\ 0 <= fst (e_now e) /\ e_ifs e = Some ifs /\ well_named hostname l /\
  load_files d e ifname hostname l = Ok d' /\ In s l /\ ~ shows d' (is_ptr meta (service_type s)).
Proof.
  destruct (load_files_safe three (mdnsd_new (1, 0) 1 1400) when eth0 km) as (d' & E & K); [apply reach_new; cbn; lia|cbn; lia|].
  exists (mdnsd_new (1, 0) 1 1400), when, cards, eth0, km, three, d', (mksrec (Some (ascii_text "_ftp._tcp")) None 80 None None []).
  split; [apply reach_new; cbn; lia|]. split; [intros r X Q; discriminate Q|]. split; [cbn; lia|]. split; [reflexivity|]. split; [apply well_named_by; vm_compute; reflexivity|]. split; [exact E|].
  split; [right; right; left; reflexivity|]. apply no_ptr; [exact K|].
  assert (Q : match load_files (mdnsd_new (1, 0) 1 1400) when eth0 km three with Ok d => has_ptr d meta (local (ascii_text "_ftp._tcp")) | _ => true end = false) by (vm_compute; reflexivity).
  rewrite E in Q. exact Q.
Qed.
Print Assumptions C73_refuted.
