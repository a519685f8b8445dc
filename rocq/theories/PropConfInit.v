(* C113: which files the daemon reads its services from. *)
From Coq Require Import String.
From Coq Require Import Sorting.Sorted.
From Verif Require Import Base SpecLib SpecDns Hash Wire Rec Qry Out In Api DaemonInv SpecDaemon SpecAddr Lib Conf Load SpecConf SpecLoad FactsLoad FactsLoad3 ConfInit SpecConfInit Scenario FactsConfInit PropConf PropLoad.
Open Scope list_scope.

(* From a directory whose path has no special characters, exactly the readable
   files *.service are loaded, each once, in the order of their names, into both
   daemons; the result is 0 only if there is one and all could be read. *)
Theorem C113_directory_partial : forall fs expand line hostbuf hostnm hostid b hostname path e ifname, zlen line = 256 -> conf_hostname hostbuf hostnm hostid = Ok b -> holds_string b hostname -> 0 <= fst (e_now e) ->
  forall names d d6, plain_path path -> slashes fs -> fs path = Dir (Some names) -> NoDup names ->
  (forall n, In n names -> service_name n -> proper_file (fs (inside path n)) \/ fs (inside path n) = Locked) ->
  reach d -> (forall x, d6 = Some x -> reach x) ->
  exists L, NoDup (map fst L) /\ StronglySorted comes_before (map fst L) /\ (forall n s, In (n, s) L -> says_service (fs (inside path n)) s) /\
    (forall n, In n (map fst L) <-> In n names /\ service_name n /\ fs (inside path n) <> Locked) /\
    exists d' d6' rc, conf_init fs expand line hostbuf hostnm hostid path d d6 e ifname = Ok (d', d6', rc) /\
      load_files d e ifname hostname (map snd L) = Ok d' /\ reach d' /\
      match d6, d6' with Some x, Some x' => load_files x e ifname hostname (map snd L) = Ok x' /\ reach x' | None, None => True | _, _ => False end /\
      (rc = 0 <-> (exists n, In n names /\ service_name n) /\ forall n, In n names -> service_name n -> fs (inside path n) <> Locked).
Proof. exact reads_directory. Qed.
Print Assumptions C113_directory_partial.

(* So daemons without records publish the services of these files, and nothing else. *)
Theorem C113_published_partial : forall fs expand line hostbuf hostnm hostid b hostname path e ifname, zlen line = 256 -> conf_hostname hostbuf hostnm hostid = Ok b -> holds_string b hostname -> 0 <= fst (e_now e) ->
  forall names d d6 ifs, plain_path path -> slashes fs -> fs path = Dir (Some names) -> NoDup names ->
  (forall n, In n names -> service_name n -> proper_file (fs (inside path n)) \/ fs (inside path n) = Locked) ->
  reach d -> (forall r X, ~ record d r X) -> (forall x, d6 = Some x -> reach x /\ forall r X, ~ record x r X) -> e_ifs e = Some ifs ->
  exists L, (forall n s, In (n, s) L -> says_service (fs (inside path n)) s) /\ (forall n, In n (map fst L) <-> In n names /\ service_name n /\ fs (inside path n) <> Locked) /\
    (well_named hostname (map snd L) -> apart hostname (map snd L) ->
     exists d' d6' rc, conf_init fs expand line hostbuf hostnm hostid path d d6 e ifname = Ok (d', d6', rc) /\ publishes d' ifs ifname hostname (map snd L) /\
       match d6, d6' with Some _, Some x' => publishes x' ifs ifname hostname (map snd L) | None, None => True | _, _ => False end).
Proof. exact publishes_directory. Qed.
Print Assumptions C113_published_partial.

(* A path that names a file: that file, whatever its name. *)
Theorem C113_file : forall fs expand line hostbuf hostnm hostid b hostname path e ifname, zlen line = 256 -> conf_hostname hostbuf hostnm hostid = Ok b -> holds_string b hostname -> 0 <= fst (e_now e) ->
  forall d d6, proper_file (fs path) -> reach d -> (forall x, d6 = Some x -> reach x) ->
  exists s d' d6', says_service (fs path) s /\ conf_init fs expand line hostbuf hostnm hostid path d d6 e ifname = Ok (d', d6', 0) /\ load_files d e ifname hostname [s] = Ok d' /\ reach d' /\
    match d6, d6' with Some x, Some x' => load_files x e ifname hostname [s] = Ok x' /\ reach x' | None, None => True | _, _ => False end.
Proof. exact reads_file. Qed.
Print Assumptions C113_file.

(* A path where there is nothing, or nothing that can be read: an error, and
   nothing changes. *)
Theorem C113_missing : forall fs expand line hostbuf hostnm hostid b path e ifname, conf_hostname hostbuf hostnm hostid = Ok b ->
  forall d d6, (fs path = Missing -> conf_init fs expand line hostbuf hostnm hostid path d d6 e ifname = Ok (d, d6, 1)) /\ (fs path = Locked -> conf_init fs expand line hostbuf hostnm hostid path d d6 e ifname = Ok (d, d6, 1)).
Proof. exact reads_nothing. Qed.
Print Assumptions C113_missing.

(* Any path, any directories, any files of lines that are not blank: nothing goes wrong. *)
Theorem C113_safe : forall fs expand line hostbuf hostnm hostid b path e ifname, zlen line = 256 -> conf_hostname hostbuf hostnm hostid = Ok b -> 0 <= fst (e_now e) ->
  forall d d6, fs [] = Missing ->
  (forall p c, fs p = File c -> exists lines last, c = text lines last /\ Forall (fun l => ~ In 10 l /\ zlen l mod 255 <> 0) lines /\ ~ In 10 last) ->
  reach d -> (forall x, d6 = Some x -> reach x) ->
  exists d' d6' rc, conf_init fs expand line hostbuf hostnm hostid path d d6 e ifname = Ok (d', d6', rc) /\ reach d' /\ (forall x, d6' = Some x -> reach x).
Proof. exact reads_safe. Qed.
Print Assumptions C113_safe.

(* Two services, a hidden one, a locked one and a note *)
Definition listing (l : list string) : node := Dir (Some (map ascii_text l)).
Definition page (l : list string) : node := File (text (map ascii_text l) []).
Definition etc : disk := disk_of
  [(ascii_text "/etc/m", listing ["web.service"; ".old.service"; "notes"; "ftp.service"; "key.service"]%string);
   (ascii_text "/etc/m/web.service", page ["type _http._tcp"; "port 80"]%string); (ascii_text "/etc/m/.old.service", page ["type _old._tcp"]%string);
   (ascii_text "/etc/m/notes", page ["todo"]%string); (ascii_text "/etc/m/ftp.service", page ["type _ftp._tcp"; "port 21"]%string);
   (ascii_text "/etc/m/key.service", Locked)].
Definition no_expand (_ : list Z) : option (list (list Z)) := None.
Definition started : daemon := mdnsd_new (1, 0) 1 1400.
Definition init (fs : disk) (path : string) : res (daemon * option daemon * Z) := conf_init fs no_expand junk blank (gate ++ [0]) 1 (ascii_text path) started (Some started) when eth0.
(* The types listed, in both, and the result *)
Definition listed (r : res (daemon * option daemon * Z)) (types : list string) : list (bool * bool) * Z :=
  match r with
  | Ok (d, Some d6, rc) => (map (fun t => (has_ptr d meta (local (ascii_text t)), has_ptr d6 meta (local (ascii_text t)))) types, rc)
  | _ => ([], 2)
  end.
Example C113_case : plain_path (ascii_text "/etc/m") /\ slashes etc /\ NoDup (map ascii_text ["web.service"; ".old.service"; "notes"; "ftp.service"; "key.service"]%string) /\
  service_name (ascii_text "web.service") /\ ~ service_name (ascii_text ".old.service") /\ ~ service_name (ascii_text "notes") /\
  proper_file (etc (inside (ascii_text "/etc/m") (ascii_text "web.service"))) /\ proper_file (etc (inside (ascii_text "/etc/m") (ascii_text "ftp.service"))) /\
  etc (inside (ascii_text "/etc/m") (ascii_text "key.service")) = Locked /\
  reach started /\ listed (init etc "/etc/m") ["_http._tcp"; "_ftp._tcp"; "_old._tcp"]%string = ([(true, true); (true, true); (false, false)], 1) /\
  listed (init etc "/etc/m/web.service") ["_http._tcp"; "_ftp._tcp"]%string = ([(true, true); (false, false)], 0).
Proof.
  split; [split; [discriminate|split; [discriminate|intros c I; vm_compute in I; repeat (destruct I as [<-|I]; [repeat split; discriminate|]); destruct I]]|].
  split; [apply disk_slashes|].
  split; [apply (NoDup_map_inv (fun x => zlen x :: x)); vm_compute; repeat (constructor; [intros I; repeat (destruct I as [I|I]; [discriminate I|]); exact I|]); constructor|].
  split; [apply service_iff; vm_compute; reflexivity|]. split; [intros I; apply service_iff in I; vm_compute in I; discriminate I|]. split; [intros I; apply service_iff in I; vm_compute in I; discriminate I|].
  split; [exists (map ascii_text ["type _http._tcp"; "port 80"]%string), []; split; [vm_compute; reflexivity|split; [repeat constructor; try (vm_compute; discriminate); vm_compute; intros K; repeat (destruct K as [K|K]; [discriminate K|]); exact K|left; reflexivity]]|].
  split; [exists (map ascii_text ["type _ftp._tcp"; "port 21"]%string), []; split; [vm_compute; reflexivity|split; [repeat constructor; try (vm_compute; discriminate); vm_compute; intros K; repeat (destruct K as [K|K]; [discriminate K|]); exact K|left; reflexivity]]|].
  split; [vm_compute; reflexivity|]. split; [apply reach_new; cbn; lia|]. split; vm_compute; reflexivity.
Qed.

(* With special characters in the path other files are read: those of /ab where
   the path is /a?, and none where the path has a backslash in it. *)
Definition twins : disk := disk_of
  [([], listing ["a?"; "ab"]%string); (ascii_text "/a?", listing ["x.service"]%string); (ascii_text "/ab", listing ["y.service"]%string);
   (ascii_text "/a?/x.service", page ["type _ssh._tcp"]%string); (ascii_text "/ab/y.service", page ["type _ftp._tcp"]%string)].
Theorem C113_refuted_other : slashes twins /\ twins (ascii_text "/a?") = listing ["x.service"]%string /\ listed (init twins "/a?") ["_ssh._tcp"; "_ftp._tcp"]%string = ([(true, true); (true, true)], 0).
Proof. split; [apply disk_slashes|]. split; vm_compute; reflexivity. Qed.
Print Assumptions C113_refuted_other.
Definition dos : disk := disk_of [([], listing ["a\b"]%string); (ascii_text "/a\b", listing ["x.service"]%string); (ascii_text "/a\b/x.service", page ["type _ssh._tcp"]%string)].
Theorem C113_refuted_none : slashes dos /\ dos (ascii_text "/a\b") = listing ["x.service"]%string /\ listed (init dos "/a\b") ["_ssh._tcp"]%string = ([(false, false)], 1).
Proof. split; [apply disk_slashes|]. split; vm_compute; reflexivity. Qed.
Print Assumptions C113_refuted_none.
(* A directory of the name x.service counts as a file that says nothing: a web
   service at port 0 is published. *)
Definition nested : disk := disk_of [(ascii_text "/d", listing ["x.service"]%string); (ascii_text "/d/x.service", listing [])].
Theorem C113_refuted_nested : slashes nested /\ nested (ascii_text "/d") = listing ["x.service"]%string /\ nested (ascii_text "/d/x.service") = Dir (Some []) /\
  listed (init nested "/d") ["_http._tcp"]%string = ([(true, true)], 0).
Proof. split; [apply disk_slashes|]. split; [vm_compute; reflexivity|]. split; vm_compute; reflexivity. Qed.
Print Assumptions C113_refuted_nested.
