(* The properties of the interfaces (C60, C61, C64, C74). *)
From Verif Require Import Base Iface SpecIface FactsIface.

(* C60: after a scan the IPv6 address kept for a listed interface is one of those
   listed for it, and none of them is preferable, in whatever order they came *)
Theorem C60_best : forall only es l, NoDup (map i_name l) -> short_names es -> proper es -> no_any6 es ->
  forall i, In i (iface_init only es l) -> listed only es (i_name i) ->
  (forall a, has_inet6 only es (i_name i) a -> rank6 a <= rank6 (i_addr6 i)) /\
  ((exists a, has_inet6 only es (i_name i) a) -> has_inet6 only es (i_name i) (i_addr6 i)) /\
  ((forall a, ~ has_inet6 only es (i_name i) a) -> i_addr6 i = any6).
Proof. exact best6. Qed.
Print Assumptions C60_best.

(* the IPv4 address is one of those listed, and a routable one if there is one *)
Theorem C60_ipv4 : forall only es l, NoDup (map i_name l) -> short_names es -> proper es ->
  forall i, In i (iface_init only es l) -> listed only es (i_name i) ->
  (i_addr i = 0 \/ has_inet only es (i_name i) (i_addr i)) /\
  ((exists a, has_inet only es (i_name i) a /\ routable a) -> routable (i_addr i)).
Proof. exact best4. Qed.
Print Assumptions C60_ipv4.

(* the list keeps one element for each name, the old ones and the listed ones *)
Theorem C60_list : forall only es l, NoDup (map i_name l) -> short_names es ->
  NoDup (map i_name (iface_init only es l)) /\
  forall n, In n (map i_name (iface_init only es l)) <-> In n (map i_name l) \/ listed only es n.
Proof. exact init_names. Qed.
Print Assumptions C60_list.

Definition addr6 (a b z : Z) : list Z := [a; b] ++ repeat 0 13 ++ [z].
Definition eth0 : list Z := [101; 116; 104; 48].
Definition wlan0 : list Z := [119; 108; 97; 110; 48].
Definition lists (n : list Z) (s : sock) : entry := mkentry n s false true true true.
Definition scan1 : list entry :=
  [lists eth0 (Inet 2851995905); lists wlan0 (Inet 167772161); lists eth0 (Inet 3232235777); lists eth0 (Inet6 (addr6 253 0 1)); lists wlan0 (Inet6 (addr6 254 128 9));
   lists eth0 (Inet6 (addr6 254 128 1)); lists eth0 (Inet6 (addr6 32 1 1)); lists eth0 (Inet6 (addr6 254 192 1))].

Example C60_case : NoDup (map i_name (@nil iface)) /\ short_names scan1 /\ proper scan1 /\ no_any6 scan1 /\
  map (fun i => (i_name i, i_addr i, i_addr6 i)) (iface_init None scan1 []) = [(eth0, 3232235777, addr6 32 1 1); (wlan0, 167772161, addr6 254 128 9)] /\
  listed None scan1 eth0 /\ has_inet6 None scan1 eth0 (addr6 32 1 1).
Proof.
  split; [constructor|]. split; [|split; [|split; [|split; [|split]]]].
  - intros e I. vm_compute in I. repeat (destruct I as [<-|I]; [vm_compute; discriminate|]). contradiction.
  - intros e I. vm_compute in I. repeat (destruct I as [<-|I]; [cbn [n_sock]; first [lia|split; [repeat constructor; unfold is_byte; lia|reflexivity]]|]). contradiction.
  - intros e I. vm_compute in I. repeat (destruct I as [<-|I]; [vm_compute; discriminate|]). contradiction.
  - vm_compute. reflexivity.
  - exists (lists eth0 (Inet 3232235777)). split; [right; right; left; reflexivity|]. split; [|reflexivity]. split; [exists 3232235777; left; reflexivity|]. cbn. auto 10.
  - exists (lists eth0 (Inet6 (addr6 32 1 1))). split; [do 6 right; left; reflexivity|]. split; [|auto]. split; [exists 0; right; exists (addr6 32 1 1); reflexivity|]. cbn. auto 10.
Qed.

(* C61: an interface that is still listed counts as changed if and only if one of
   its addresses differs from what it was *)
Theorem C61_changed : forall only es l, NoDup (map i_name l) -> short_names es ->
  forall i i', In i l -> In i' (iface_init only es l) -> i_name i' = i_name i -> real_addr only es (i_name i) ->
  i_unused i' = false /\ (i_changed i' = true <-> i_addr i' <> i_addr i \/ i_addr6 i' <> i_addr6 i).
Proof. exact changed_iff. Qed.
Print Assumptions C61_changed.

(* a new interface counts as changed and has neither socket nor context *)
Theorem C61_new : forall only es l, NoDup (map i_name l) -> short_names es -> proper es -> no_any es ->
  forall i', In i' (iface_init only es l) -> ~ In (i_name i') (map i_name l) -> i_unused i' = false /\ i_changed i' = true /\ i_sd i' = -1 /\ i_mdns i' = false.
Proof. exact new_changed. Qed.
Print Assumptions C61_new.

(* An interface that is no longer listed should be given up.  It is not: it is
   never flagged, and setting up leaves it as it is. *)
Theorem C61_refuted_vanished : forall only es l, NoDup (map i_name l) -> short_names es ->
  forall i i', In i l -> In i' (iface_init only es l) -> i_name i' = i_name i -> ~ listed only es (i_name i) -> i_changed i = false ->
  i_unused i' = true /\ i_changed i' = false /\ i_mdns i' = i_mdns i /\ i_sd i' = i_sd i /\ forall fd fd6, setup_iface fd fd6 i' = Ok (Some i').
Proof. exact vanished. Qed.
Print Assumptions C61_refuted_vanished.

Definition scan2 : list entry := [lists eth0 (Inet6 (addr6 32 1 1)); lists eth0 (Inet 3232235778)].
Definition up1 : list iface := match sys_init None scan1 (fun _ => (5, 6)) [] with Ok l => l | _ => [] end.
Example C61_case : NoDup (map i_name up1) /\ real_addr None scan2 eth0 /\ ~ listed None scan2 wlan0 /\
  map (fun i => (i_name i, i_changed i, i_mdns i)) up1 = [(eth0, false, true); (wlan0, false, true)] /\
  map (fun i => (i_name i, i_addr i, i_changed i, i_unused i)) (iface_init None scan2 up1) = [(eth0, 3232235778, true, false); (wlan0, 0, false, true)] /\
  map (fun i => (i_name i, i_addr i, i_changed i, i_unused i)) (iface_init None scan1 up1) = [(eth0, 3232235777, false, false); (wlan0, 167772161, false, false)].
Proof.
  split; [|split; [|split; [|split; [|split]]]].
  - vm_compute. repeat constructor; cbn; intros K; repeat (destruct K as [K|K]; [discriminate K|]); exact K.
  - left. exists 3232235778. split; [|discriminate]. exists (lists eth0 (Inet 3232235778)). split; [right; left; reflexivity|]. split; [|auto]. split; [exists 3232235778; left; reflexivity|]. cbn. auto 10.
  - intros (e & I & _ & N). vm_compute in I. repeat (destruct I as [<-|I]; [vm_compute in N; discriminate N|]). contradiction.
  - vm_compute. reflexivity.
  - vm_compute. reflexivity.
  - vm_compute. reflexivity.
Qed.

(* C74: reloading and exiting use the context of every interface.  If no scan
   ever lists 0.0.0.0 or :: they exist: nothing of the kind is dereferenced as NULL. *)
Theorem C74_partial : forall only (fine : list entry -> Prop) l, (forall es, fine es -> proper es /\ no_any es) -> running only fine l ->
  Forall (fun i => i_mdns i = true) l /\ reload_all l = Ok tt /\ free_all l = Ok tt.
Proof. exact (fun only fine l H R => let M := running_mdns only fine l H R in conj M (exits l M)). Qed.
Print Assumptions C74_partial.

Example C74_case : exists l, running None (fun es => proper es /\ no_any es) l /\ map (fun i => (i_name i, i_sd i, i_hostid i)) l = [(eth0, 5, 2); (wlan0, 5, 1)].
Proof.
  exists (conflict false eth0 up1). split; [|vm_compute; reflexivity]. apply run_conflict. apply (run_scan None _ [] scan1 (fun _ => (5, 6)) up1).
  - constructor.
  - exact (proj1 (proj2 C60_case)).
  - split; [exact (proj1 (proj2 (proj2 C60_case)))|]. intros e I. vm_compute in I. repeat (destruct I as [<-|I]; [split; vm_compute; discriminate|]). contradiction.
  - vm_compute. reflexivity.
Qed.

(* An interface whose only address is 0.0.0.0, as while waiting for DHCP, stays
   without context: the next reload dereferences NULL, as does exiting *)
Theorem C74_refuted : exists l, running None proper l /\ reload_all l = UB NullDeref /\ free_all l = UB NullDeref.
Proof.
  set (es := [lists eth0 (Inet 0)]). exists (match sys_init None es (fun _ => (5, 6)) [] with Ok l => l | _ => [] end). split; [|vm_compute; auto].
  apply (run_scan None _ [] es (fun _ => (5, 6))).
  - constructor.
  - intros e [<-|[]]. vm_compute. discriminate.
  - intros e [<-|[]]. vm_compute. split; [discriminate|reflexivity].
  - vm_compute. reflexivity.
Qed.
Print Assumptions C74_refuted.

(* C64: the main loop sleeps at most one second longer than any context asked for,
   and at most one second longer than its own timeout *)
Theorem C64_partial : forall tv timeout nexts n, 0 <= snd tv <= 1000000 -> (forall m, In m nexts -> 0 <= snd m <= 1000000) -> In n nexts ->
  micros (select_timeout tv timeout nexts) <= micros n + 1000000 /\ micros (select_timeout tv timeout nexts) <= timeout * 1000000 + 1000000.
Proof. exact wakes. Qed.
Print Assumptions C64_partial.
Example C64_case : select_timeout (10, 0) 10 [(3, 500000); (0, 120000); (2, 0)] = (0, 120000).
Proof. reflexivity. Qed.

(* but it does sleep longer: of 900 ms and 100 ms it takes the first *)
Theorem C64_refuted : exists tv timeout nexts n, In n nexts /\ Forall (fun m => 0 <= snd m < 1000000) (tv :: nexts) /\ micros n + 700000 < micros (select_timeout tv timeout nexts).
Proof.
  exists (10, 0), 10, [(0, 900000); (0, 100000)], (0, 100000). split; [right; left; reflexivity|]. split; [repeat constructor; cbn; lia|]. vm_compute. reflexivity.
Qed.
Print Assumptions C64_refuted.
