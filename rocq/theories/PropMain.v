(* The properties of the main program's descriptors (C96 to C99). *)
From Verif Require Import Base Iface SpecIface Main SpecMain FactsMain FactsPassing.

(* C96: whatever happens, nothing is asked of the kernel about a descriptor that
   is not open then: none is used after it was closed or closed twice. *)
Theorem C96_clean : forall k only ttl es0 ts, honest k -> clean (so_far (main k only ttl es0 ts)).
Proof. exact main_clean. Qed.
Print Assumptions C96_clean.

(* Nothing is lost track of while the program runs. *)
Theorem C96_no_leak : forall k only ttl es0 ts nl tr l, honest k -> looping k only ttl es0 ts nl tr l -> NoDup (opened tr) /\
  forall fd, In fd (opened tr) <-> 0 <= fd /\ (fd = nl \/ exists i, In i l /\ (fd = i_sd i \/ fd = i_sd6 i)).
Proof. exact looping_leaks. Qed.
Print Assumptions C96_no_leak.

(* All descriptors are closed when the program ends normally. *)
Theorem C96_closed : forall k only ttl es0 ts tr, honest k -> main k only ttl es0 ts = Quit tr 0 -> opened tr = [].
Proof. exact main_closed. Qed.
Print Assumptions C96_closed.

(* C99: no context is used that is not there, and no fd_set is left unless the kernel
   gave a descriptor of 1024 or more. *)
Theorem C99_alive : forall k only ttl es0 ts tr c, honest k -> real_scan es0 -> Forall real_turn ts -> main k only ttl es0 ts = Crash tr c ->
  c = FdSet /\ exists f fd, In (ASocket f, fd) tr /\ 1024 <= fd.
Proof. exact main_alive. Qed.
Print Assumptions C99_alive.

(* C97: packets are only read from and written to sockets that were made for one
   interface, with the TTL that was asked for, and joined the group there. *)
Theorem C97_configured : forall k only ttl es0 ts pre fd r post, honest k -> so_far (main k only ttl es0 ts) = pre ++ (AIo fd, r) :: post ->
  exists family name, prepared pre fd family name (if ttl mod 256 =? 0 then 1 else ttl mod 256).
Proof. exact main_io. Qed.
Print Assumptions C97_configured.

(* The sockets of an interface were made for that interface. *)
Theorem C97_own : forall k only ttl es0 ts nl tr l i, honest k -> looping k only ttl es0 ts nl tr l -> In i l ->
  (0 <= i_sd i -> prepared tr (i_sd i) 2 (i_name i) (if ttl mod 256 =? 0 then 1 else ttl mod 256)) /\ (0 <= i_sd6 i -> prepared tr (i_sd6 i) 10 (i_name i) (if ttl mod 256 =? 0 then 1 else ttl mod 256)).
Proof. exact looping_own. Qed.
Print Assumptions C97_own.

(* C98: the program ends by itself only if an IPv4 socket cannot be had, whatever
   happens to IPv6 sockets, to netlink and to other sockets. *)
Theorem C98_ends : forall k only ttl es0 ts, honest k -> match main k only ttl es0 ts with Go _ _ => False | Quit tr c => c = 0 \/ c = 1 /\ refused tr 2 | Crash _ _ => True end.
Proof. exact main_ends. Qed.
Print Assumptions C98_ends.

(* Every interface known has its IPv4 socket, *)
Theorem C98_ipv4 : forall k only ttl es0 ts nl tr l i, real_scan es0 -> Forall real_turn ts -> looping k only ttl es0 ts nl tr l -> In i l -> 0 <= i_sd i /\ i_mdns i = true.
Proof. exact looping_up. Qed.
Print Assumptions C98_ipv4.

(* and every turn serves each interface in use, which is given up only if its own
   IPv4 socket failed. *)
Theorem C98_isolated : forall k only ttl es0 ts nl tr l t, real_scan es0 -> Forall real_turn ts -> looping k only ttl es0 ts nl tr l -> plain_turn t ->
  match loop_turn k tr only (ttl mod 256) nl t l with
  | Go tr' o => exists post l', tr' = tr ++ post /\ o = Some l' /\ forall i, In i l -> i_unused i = false -> exists r, In (AIo (i_sd i), r) post /\
      (r <> 0 \/ exists j, In j l' /\ i_name j = i_name i /\ i_addr j = i_addr i /\ i_sd j = i_sd i /\ i_mdns j = true /\ i_unused j = false)
  | Quit _ _ => False
  | Crash _ c => c = FdSet
  end.
Proof. exact turn_isolated. Qed.
Print Assumptions C98_isolated.

Definition eth (x : Z) : list Z := [101; 116; 104; x].
Definition scan1 : list entry := [up_entry (eth 48) 3232235777; up_entry (eth 49) 3232236033].
Definition scan2 : list entry := [up_entry (eth 48) 3232235778; up_entry (eth 49) 3232236033; up_entry (eth 50) 167772161].
Definition turns : list turn := [plain; with_netlink scan2; plain; mkturn true true true false false (Some scan1) None None; plain; mkturn true false false false false None None None].

Lemma scan1_real : real_scan (Some scan1).
Proof. intros x E. injection E as <-. split; [|split]; intros e [<-|[<-|[]]]; cbn; [lia|lia|lia|lia|split; discriminate|split; discriminate]. Qed.
Lemma scan2_real : real_scan (Some scan2).
Proof. intros x E. injection E as <-. split; [|split]; intros e [<-|[<-|[<-|[]]]]; cbn; [lia|lia|lia|lia|lia|lia|split; discriminate|split; discriminate|split; discriminate]. Qed.
Lemma none_real : real_scan None.
Proof. intros x E. discriminate. Qed.
Lemma turns_real : Forall real_turn turns.
Proof. unfold turns. repeat (apply Forall_cons || apply Forall_nil); unfold real_turn; cbn [t_es1 t_es2 t_es3 plain with_netlink]; auto using scan1_real, scan2_real, none_real. Qed.
Definition named (i : iface) : list Z * Z * Z := (i_name i, i_sd i, i_sd6 i).

(* eth1's IPv4 socket, 5, fails in the first turn; netlink tells of eth2 and of a
   new address of eth0; a reload finds eth2 gone; then the program is stopped. *)
Example C96_case : honest (simple 3 5) /\ real_scan (Some scan1) /\ Forall real_turn turns /\
  (exists tr, main (simple 3 5) None 255 (Some scan1) turns = Quit tr 0 /\ length tr = 137%nat /\ In (AClose 5, 0) tr /\ In (AClose 11, 0) tr /\ In (AIo 5, 1) tr) /\
  exists tr l, looping (simple 3 5) None 255 (Some scan1) (firstn 3 turns) 7 tr l /\ map named l = [(eth 48, 3, 4); (eth 49, 8, 9); (eth 50, 10, 11)].
Proof.
  split; [apply simple_honest|]. split; [exact scan1_real|]. split; [exact turns_real|]. split.
  - eexists. split; [vm_compute; reflexivity|]. split; [reflexivity|]. repeat split; vm_compute; auto 150.
  - eexists. eexists. split; [|shelve]. eexists. eexists. eexists. split; [vm_compute; reflexivity|]. split; [vm_compute; reflexivity|]. vm_compute. reflexivity.
    Unshelve. reflexivity.
Qed.

(* The same with a kernel that gives descriptors from 1020 on *)
Example C99_case : honest (simple 1020 5) /\ (exists tr, main (simple 3 5) None 255 (Some scan1) turns = Quit tr 0) /\
  exists tr fd, main (simple 1020 5) None 255 (Some scan1) turns = Crash tr FdSet /\ In (ASocket FAM4, fd) tr /\ fd < 1024.
Proof.
  split; [apply simple_honest|]. split; [eexists; vm_compute; reflexivity|]. eexists. exists 1020. split; [vm_compute; reflexivity|]. split; [vm_compute; auto|reflexivity].
Qed.

(* One interface at a time, but each with a name of its own: the sockets of those
   that are gone stay open, until the fd_set is too small. *)
Lemma single_real : forall name a, zlen name <= 15 -> 0 < a < 2 ^ 32 -> real_scan (Some [up_entry name a]).
Proof. intros name a L A x E. injection E as <-. split; [|split]; intros e [<-|[]]; cbn [up_entry n_name n_sock]; [exact L|lia|split; [|discriminate]; intros K; injection K as K; lia]. Qed.
Lemma passing_real : forall n, 0 <= n < 1000 -> real_scan (Some (passing n)).
Proof. intros n H. unfold passing. apply single_real; [discriminate|lia]. Qed.
Theorem C99_refuted_gone : honest (simple 3 0) /\ Forall real_turn (passings ++ [plain]) /\ is_overrun (main (simple 3 0) None 255 (Some (passing 0)) (passings ++ [plain])) = true.
Proof.
  split; [apply simple_honest|]. split; [|exact passing_overrun]. apply Forall_app. split.
  - apply Forall_forall. intros t I. apply in_map_iff in I as (n & <- & J). apply in_seq in J. split; [exact none_real|]. split; [|exact none_real]. apply passing_real. lia.
  - constructor; [|constructor]. split; [exact none_real|]. split; exact none_real.
Qed.
Print Assumptions C99_refuted_gone.

Definition options_of (fd : Z) (tr : trace) : list sockopt := concat (map (fun e => match fst e with AOption x o => if x =? fd then [o] else [] | _ => [] end) tr).
Example C97_case : exists tr, main (simple 3 5) None 1 (Some scan1) turns = Quit tr 0 /\ In (AIo 9, 0) tr /\
  options_of 9 tr = [ReusePort; ReuseAddr; V6Only; McLoop; McTtl 1; UniTtl 255; McIf (eth 49); BindDev (eth 49); Join [255; 2; 0; 0; 0; 0; 0; 0; 0; 0; 0; 0; 0; 0; 0; 251] (eth 49)].
Proof. eexists. split; [vm_compute; reflexivity|]. split; [vm_compute; auto 150|vm_compute; reflexivity]. Qed.

(* The same kernel, but without sockets of the family *)
Definition without (family : Z) (k : kernel) : kernel := fun tr c => match c with ASocket f => if f =? family then -1 else k tr c | _ => k tr c end.
Lemma without_honest : forall family k, honest k -> honest (without family k).
Proof. intros family k H tr f. cbn [without]. destruct (f =? family); [lia|apply H]. Qed.
Example C98_case : honest (without 10 (simple 3 4)) /\
  (exists tr, main (without 10 (simple 3 4)) None 255 (Some scan1) turns = Quit tr 0) /\
  (exists tr l, looping (without 10 (simple 3 4)) None 255 (Some scan1) [] 5 tr l /\ plain_turn plain /\ map named l = [(eth 48, 3, -1); (eth 49, 4, -1)] /\
     exists l', (exists tr', loop_turn (without 10 (simple 3 4)) tr None 255 5 plain l = Go (tr ++ tr') (Some l') /\ In (AIo 3, 0) tr' /\ In (AIo 4, 1) tr') /\ map named l' = [(eth 48, 3, -1)]) /\
  exists tr, main (without 2 (simple 3 4)) None 255 (Some scan1) turns = Quit tr 1.
Proof.
  split; [apply without_honest, simple_honest|]. split; [eexists; vm_compute; reflexivity|]. split; [|eexists; vm_compute; reflexivity].
  eexists. eexists. split; [eexists; eexists; eexists; split; [vm_compute; reflexivity|]; split; vm_compute; reflexivity|]. split; [repeat split|]. split; [reflexivity|].
  eexists. split; [|shelve]. exists [(ASelect [5; 3; 4], 0); (AIo 3, 0); (AIo 4, 1); (AIo 4, 1); (AClose 4, 0)]. split; [vm_compute; reflexivity|]. cbn; auto 10.
  Unshelve. reflexivity.
Qed.
