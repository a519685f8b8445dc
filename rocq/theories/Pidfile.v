(* Model of lib/pidfile.c.  The file system is a map from paths to contents; what
   the system makes of each call is an input.  Memory is always there (asprintf). *)
From Verif Require Import Base Conf.

Definition files : Type := list Z -> option (list Z).
Definition put (f : files) (p : list Z) (c : option (list Z)) : files := fun q => if bytes_eqb p q then c else f q.

(* pidfile.c:47-48 the static variables, and how many times the handler will be
   called at exit.  All of it is copied by fork(). *)
Record pidstate : Type := mkpid { p_path : option (list Z); p_pid : Z; p_handlers : nat }.
Definition pid_new : pidstate := mkpid None 0 0.

(* What the system says: may an existing file be read, can it be opened for
   writing, was the line written, was the handler registered *)
Record says : Type := mksays { readable : bool; opens : bool; writes : bool; registers : bool }.

(* pidfile.c:82-88: "%s/%s.pid", with the directory that was configured *)
Definition pid_path (dir base : list Z) : list Z := match base with 47 :: _ => base | _ => dir ++ [47] ++ base ++ [46; 112; 105; 100] end.
(* "%ld\n" *)
Definition pid_line (pid : Z) : list Z := dec pid ++ [10].

(* pidfile.c:55-129 for a base that is not NULL; the time stamp is not modelled *)
Definition pidfile (dir base : list Z) (pid : Z) (e : says) (st : pidstate) (f : files) : pidstate * files * Z :=
  let exists_readable p := match f p with Some _ => readable e | None => false end in
  let fresh (already : bool) (st : pidstate) :=
    let p := pid_path dir base in
    if negb (opens e) then (mkpid None (p_pid st) (p_handlers st), f, -1)
    else if negb (writes e) then (mkpid None (p_pid st) (p_handlers st), put f p None, -1)
    else
      let f := put f p (Some (pid_line pid)) in
      if already then (mkpid (Some p) (p_pid st) (p_handlers st), f, 0)
      else if registers e then (mkpid (Some p) pid (S (p_handlers st)), f, 0)
      else (mkpid None 0 (p_handlers st), put f p None, -1)
  in
  match p_path st with
  | Some p => if exists_readable p && (pid =? p_pid st) then (st, f, 0) else fresh true st
  | None => fresh false st
  end.

(* pidfile.c:131-139; unlink may fail: the file is kept then *)
Definition cleanup (pid : Z) (unlinks : bool) (st : pidstate) (f : files) : pidstate * files :=
  match p_path st with
  | Some p => if p_pid st =? pid then (mkpid None (p_pid st) (p_handlers st), if unlinks then put f p None else f) else (st, f)
  | None => (st, f)
  end.
(* exit(3) calls the handler as often as it was registered *)
Fixpoint handlers (n : nat) (pid : Z) (unlinks : bool) (st : pidstate) (f : files) : files :=
  match n with
  | O => f
  | S n => let '(st, f) := cleanup pid unlinks st f in handlers n pid unlinks st f
  end.
Definition exits (pid : Z) (unlinks : bool) (st : pidstate) (f : files) : files := handlers (p_handlers st) pid unlinks st f.

(* What can become of a process: it calls pidfile() with this base, and between that
   other processes do what they may to the files.  Last: what the latest call
   returned. *)
Inductive lives (may : files -> files -> Prop) (dir base : list Z) (pid : Z) : pidstate -> files -> Z -> Prop :=
| lives_new : forall f, lives may dir base pid pid_new f (-1)
| lives_call : forall st f r e st' f' r', lives may dir base pid st f r -> pidfile dir base pid e st f = (st', f', r') -> lives may dir base pid st' f' r'
| lives_others : forall st f r f', lives may dir base pid st f r -> may f f' -> lives may dir base pid st f' r.
