(* Property theorem C91: mdnsd_free.  Vocabulary: SpecFree.v.  Model: Free.v. *)
From Verif Require Import Base Hash Wire Rec Qry Out In Api SpecDaemon Scenario Free SpecFree FreeProofs.

(* ---- C91 ---- *)
Theorem C91_free : forall d, reach d -> exists bl, mdnsd_free d = Ok bl /\ NoDup bl /\ forall b, In b bl <-> allocated d b.
Proof. exact freed_once. Qed.
Print Assumptions C91_free.

(* A record with data, one with a target, two queries, an answer to one of them
   in the cache and a unicast reply that was not sent; a third record was
   withdrawn while it was being probed. *)
Definition full : list (tv * op) :=
  [((1, 0), OShared (nm 97) QTYPE_TXT 60); ((1, 0), OSetRaw 0 [1; 97]); ((1, 0), OShared (nm 98) QTYPE_PTR 60); ((1, 0), OSetHost 1 (nm 97));
   ((1, 0), OUnique (nm 99) QTYPE_A 60 (Some 7%nat)); ((1, 0), ODone 2);
   ((1, 0), OQuery (nm 101) QTYPE_PTR (Some 5%nat)); ((1, 0), OQuery (nm 102) QTYPE_A (Some 6%nat));
   ((1, 0), OIn (telling [rr_ptr (nm 101) 1 120 (nm 103)]) peer); ((1, 0), OIn (asking 9 [mkquestion (nm 97) QTYPE_TXT 1] []) stranger)].
Example C91_case : mdnsd_free (story 1400 full) = Ok
  (let c := cbucket (nm 101) in
   [BCached c 0 PName; BCached c 0 PRdata; BCached c 0 PRdname; BCached c 0 PStruct;
    BRecord 0 PName; BRecord 0 PRdata; BRecord 0 PStruct; BRecord 1 PName; BRecord 1 PRdname; BRecord 1 PStruct;
    BQuery 0 PName; BQuery 0 PStruct; BQuery 1 PName; BQuery 1 PStruct; BReply 0; BDaemon]).
Proof. vm_compute. reflexivity. Qed.
