(* The memory a daemon holds. *)
From Verif Require Import Base Rec Qry Out In Api SpecDaemon Free.

(* The answer has the string, or it is the structure around it. *)
Definition has (a : answer) (p : part) : Prop :=
  match p with
  | PName | PStruct => True
  | PRdata => a_rdata a <> None
  | PRdname => a_rdname a <> None
  end.

Definition allocated (d : daemon) (b : block) : Prop :=
  match b with
  | BCached i id p => exists c, In c (nth i (cache (Q d)) []) /\ c_id c = id /\ has (c_rr c) p
  | BRecord r p => exists X, record d r X /\ has (rr X) p
  | BQuery q p => qh (Q d) q <> None /\ (p = PName \/ p = PStruct)
  | BReply n => (n < length (uans (R d)))%nat
  | BIfaddrs => exists i l, ifs d = Some (i :: l)
  | BDaemon => True
  end.
