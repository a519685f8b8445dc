(* The properties of the PID file (C104). *)
From Coq Require Import String.
From Verif Require Import Base SpecLib SpecConf Pidfile FactsPidfile.
Open Scope list_scope.

(* C104: as long as other processes at most remove the file, a call that returns 0
   leaves the process id in the file, whatever calls were made and failed before. *)
Theorem C104_holds : forall dir base pid st f r e st' f', lives (fun f f' => f' (pid_path dir base) = f (pid_path dir base) \/ f' (pid_path dir base) = None) dir base pid st f r ->
  pidfile dir base pid e st f = (st', f', 0) -> f' (pid_path dir base) = Some (pid_line pid).
Proof. exact pidfile_holds. Qed.
Print Assumptions C104_holds.
Theorem C104_line : forall pid, 0 <= pid < 2 ^ 31 -> exists ds, pid_line pid = ds ++ [10] /\ is_dec ds /\ dec_value ds = pid.
Proof. exact line_reads. Qed.
Print Assumptions C104_line.

(* The file is the one that was named, or else name.pid in the directory for such files. *)
Theorem C104_path : forall dir base, (hd 0 base = 47 -> pid_path dir base = base) /\ (hd 0 base <> 47 -> pid_path dir base = dir ++ [47] ++ base ++ ascii_text ".pid").
Proof. exact path_named. Qed.
Print Assumptions C104_path.

(* It returns 0 if the file can be written. *)
Theorem C104_works : forall may dir base pid st f r, lives may dir base pid st f r -> forall e, opens e = true -> writes e = true -> registers e = true -> exists st' f', pidfile dir base pid e st f = (st', f', 0).
Proof. exact pidfile_works. Qed.
Print Assumptions C104_works.

(* Whatever others do: if the last call returned 0, the file is gone when the
   process has ended, if it can be removed; if the call failed, nothing is removed. *)
Theorem C104_removed : forall may dir base pid st f r, lives may dir base pid st f r ->
  forall e st' f', pidfile dir base pid e st f = (st', f', 0) -> forall f'', exits pid true st' f'' (pid_path dir base) = None /\ forall u q, q <> pid_path dir base -> exits pid u st' f'' q = f'' q.
Proof. exact pidfile_removed. Qed.
Print Assumptions C104_removed.
Theorem C104_failed : forall may dir base pid st f r, lives may dir base pid st f r ->
  forall e st' f' r', pidfile dir base pid e st f = (st', f', r') -> r' <> 0 -> r' = -1 /\ (f' (pid_path dir base) = None \/ f' = f) /\ forall f'' u, exits pid u st' f'' = f''.
Proof. exact pidfile_failed. Qed.
Print Assumptions C104_failed.

(* No other file is touched, and a child's end removes nothing. *)
Theorem C104_keeps : forall may dir base pid st f r e st' f' r' q, lives may dir base pid st f r -> pidfile dir base pid e st f = (st', f', r') -> q <> pid_path dir base -> f' q = f q.
Proof. exact pidfile_keeps. Qed.
Print Assumptions C104_keeps.
Theorem C104_child : forall may dir base pid st f r child u f', lives may dir base pid st f r -> child <> pid -> exits child u st f' = f'.
Proof. exact child_exit. Qed.
Print Assumptions C104_child.

Definition fine : says := mksays true true true true.
Definition empty : files := fun _ => None.

(* "/run/mdnsd.pid" of process 42: written; removed by others; a call that fails, one that
   writes it again, the end *)
Example C104_case : let dir := [47; 114; 117; 110] in let base := [109; 100; 110; 115; 100] in
  let '(s1, f1, r1) := pidfile dir base 42 fine pid_new empty in
  let '(s2, f2, r2) := pidfile dir base 42 (mksays true false true true) s1 empty in
  let '(s3, f3, r3) := pidfile dir base 42 fine s2 f2 in
  pid_path dir base = [47; 114; 117; 110; 47; 109; 100; 110; 115; 100; 46; 112; 105; 100] /\ pid_line 42 = [52; 50; 10] /\ r1 = 0 /\ r2 = -1 /\ r3 = 0 /\ f3 (pid_path dir base) = Some (pid_line 42) /\ p_handlers s3 = 2%nat /\
  exits 42 true s3 f3 (pid_path dir base) = None /\
  lives (fun f f' => f' (pid_path dir base) = f (pid_path dir base) \/ f' (pid_path dir base) = None) dir base 42 s2 f2 r2.
Proof.
  cbv zeta. destruct (pidfile _ _ 42 fine pid_new empty) as [[s1 f1] r1] eqn:E1. destruct (pidfile _ _ 42 (mksays true false true true) s1 empty) as [[s2 f2] r2] eqn:E2. destruct (pidfile _ _ 42 fine s2 f2) as [[s3 f3] r3] eqn:E3.
  assert (L : lives (fun f f' => f' (pid_path [47; 114; 117; 110] [109; 100; 110; 115; 100]) = f (pid_path [47; 114; 117; 110] [109; 100; 110; 115; 100]) \/ f' (pid_path [47; 114; 117; 110] [109; 100; 110; 115; 100]) = None) [47; 114; 117; 110] [109; 100; 110; 115; 100] 42 s2 f2 r2).
  { apply (lives_call _ _ _ _ s1 empty r1 (mksays true false true true) s2 f2 r2); [| exact E2]. apply (lives_others _ _ _ _ s1 f1 r1 empty); [| right; reflexivity]. apply (lives_call _ _ _ _ pid_new empty (-1) fine); [constructor | exact E1]. }
  cbn in E1. injection E1 as <- <- <-. cbn in E2. injection E2 as <- <- <-. cbn in E3. injection E3 as <- <- <-.
  repeat split; try reflexivity. exact L.
Qed.

(* Nothing keeps two processes apart: the second takes the file over and the first
   removes it. *)
Theorem C104_refuted_two : forall dir base a b, a <> b ->
  let '(sa, f1, ra) := pidfile dir base a fine pid_new empty in
  let '(sb, f2, rb) := pidfile dir base b fine pid_new f1 in
  ra = 0 /\ rb = 0 /\ f2 (pid_path dir base) = Some (pid_line b) /\ exits a true sa f2 (pid_path dir base) = None.
Proof. exact two_processes. Qed.
Print Assumptions C104_refuted_two.

(* A call with another name returns 0 and does nothing *)
Theorem C104_refuted_name : exists dir base base' pid, let '(s1, f1, r1) := pidfile dir base pid fine pid_new empty in let '(s2, f2, r2) := pidfile dir base' pid fine s1 f1 in
  pid_path dir base' <> pid_path dir base /\ r2 = 0 /\ f2 (pid_path dir base') = None.
Proof. exact other_name. Qed.
Print Assumptions C104_refuted_name.

(* A child that calls it takes the file over and does not remove it when it ends; the
   parent's next call leaves the child's id there *)
Theorem C104_refuted_child : forall dir base pid child, child <> pid ->
  let '(s1, f1, _) := pidfile dir base pid fine pid_new empty in
  let '(s2, f2, r2) := pidfile dir base child fine s1 f1 in
  r2 = 0 /\ exits child true s2 f2 (pid_path dir base) = Some (pid_line child) /\
  pidfile dir base pid fine s1 (exits child true s2 f2) = (s1, exits child true s2 f2, 0).
Proof. exact child_takes. Qed.
Print Assumptions C104_refuted_child.
