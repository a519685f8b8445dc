(* Which files the daemon is to read. *)
From Coq Require Import Sorting.Sorted.
From Coq Require Import String.
From Verif Require Import Base SpecLib Wire Rec Qry Out In Api SpecDaemon SpecAddr Load SpecLoad Conf SpecConf ConfInit.
Open Scope list_scope.

(* mdnsd(8): *.service.  As in the shell, hidden files do not count. *)
Definition service_name (n : list Z) : Prop := exists b, n = b ++ ascii_text ".service" /\ hd 46 b <> 46.
(* A path without characters that mean something to glob(3) *)
Definition plain_path (p : list Z) : Prop := p <> [] /\ hd 0 p <> 126 /\ forall c, In c p -> c <> 42 /\ c <> 63 /\ c <> 91 /\ c <> 92.
(* The path of a file in a directory *)
Definition inside (p n : list Z) : list Z := if Z.eq_dec (last p 0) 47 then p ++ n else p ++ ascii_text "/" ++ n.
(* A slash behind the path of a directory makes no difference *)
Definition slashes (fs : disk) : Prop := forall p l, fs p = Dir l -> fs (p ++ [47]) = Dir l.
(* Names in byte order *)
Inductive comes_before : list Z -> list Z -> Prop :=
| cb_end : forall b, comes_before [] b
| cb_less : forall x y a b, x < y -> comes_before (x :: a) (y :: b)
| cb_same : forall x a b, comes_before a b -> comes_before (x :: a) (x :: b).

(* What a file says, C59 *)
Definition describes (lines : list (list Z)) (last : list Z) (s : conf_srec) : Prop :=
  let ls := text_lines lines last in
  s_type s = last_of (values word_type ls) /\ s_name s = last_of (values word_name ls) /\ s_target s = last_of (values word_target ls) /\ s_cname s = last_of (values word_cname ls) /\
  s_txt s = firstn 42 (values word_txt ls) /\
  (values word_port ls = [] -> s_port s = 0) /\
  (forall v, last_of (values word_port ls) = Some v -> is_dec v -> dec_value v < 2 ^ 31 -> s_port s = dec_value v).
(* A readable text file of proper lines that says s *)
Definition says_service (n : node) (s : conf_srec) : Prop := exists lines last, n = File (text lines last) /\ Forall plain lines /\ (last = [] \/ plain last) /\ describes lines last s.
Definition proper_file (n : node) : Prop := exists lines last, n = File (text lines last) /\ Forall plain lines /\ (last = [] \/ plain last).

(* A daemon that publishes these services and nothing else, C73 *)
Definition publishes (d : daemon) (ifs : list ifaddr) (ifname hostname : list Z) (l : list conf_srec) : Prop :=
  (forall s, In s l -> complete d ifs ifname hostname s) /\
  (forall r X, record d r X -> exists s, In s l /\ part_of ifs ifname hostname s (rr X)) /\ no_double d.
