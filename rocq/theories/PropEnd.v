(* Property theorem C19 again: shutting down while records wait in other lists.  Vocabulary: SpecDaemon.v, SpecLife.v, SpecEnd.v, SpecFree.v. *)
From Verif Require Import Base SpecDns Hash Wire Rec Qry Out In Api SpecDaemon SpecLife Scenario Free SpecFree SpecEnd FactsEnd.

(* Whatever waits to be probed, to be answered later or to be told to a single host:
   after mdnsd_shutdown any number of calls of mdnsd_out are safe if nothing is being
   announced or they come before the next announcement.  They send the waiting replies
   one by one, then goodbyes for exactly the records there were, each once; the context
   can be freed at any time, and all its memory is freed, each block once.  Missing:
   contexts with an announcement due (C19_refuted_shutdown), and shutting down between
   a service enumeration and its answer. *)
Theorem C19_sends_partial : forall d e l, reach d -> disco d = false -> quiet_for d l ->
  exists d1 d2 ms bl G k, step d e OShutdown = Ok (d1, RUnit) /\ outs d1 l = Ok (d2, ms) /\ NoDup (map fst G) /\ (forall r X, In (r, X) G <-> record d r X) /\
    concat (map answers_of (skipn (length (uans (R d))) ms)) = map (farewell (class d)) (firstn k G) /\ mdnsd_free d2 = Ok bl /\ NoDup bl /\ (forall b, In b bl <-> allocated d2 b) /\
    ((forall r X, record d r X -> 12 + rr_len (rr X) < frame d) -> (length (uans (R d)) + length G <= length l)%nat -> firstn k G = G /\ forall r, SpecLife.gone d2 r).
Proof. exact shutdown_sends. Qed.
Print Assumptions C19_sends_partial.

(* A record was announced and is asked for twice, one is being announced, one probed *)
Definition busy : list (tv * op) :=
  [((1, 0), OShared (nm 97) QTYPE_TXT 60); ((1, 0), OSetRaw 0 [1; 2; 3]); ((1, 0), OOut); ((3, 0), OOut); ((5, 0), OOut); ((7, 0), OOut); ((9, 0), OOut);
   ((20, 0), OShared (nm 100) QTYPE_TXT 60); ((20, 0), OSetRaw 1 [4]); ((20, 0), OOut); ((20, 0), OUnique (nm 98) QTYPE_SRV 60 (Some 7%nat)); ((20, 0), OSetSrv 2 0 0 80 (nm 99));
   ((21, 0), OIn (asking 0 [mkquestion (nm 97) QTYPE_TXT 1] []) peer); ((21, 0), OIn (asking 0 [mkquestion (nm 97) QTYPE_TXT 1] []) stranger)].
Definition soon : list env := [at_ (21, 0); at_ (21, 0); at_ (21, 0); at_ (21, 0)].
Example C19_case_sends : reach (story 200 busy) /\ disco (story 200 busy) = false /\ quiet_for (story 200 busy) soon /\
  (forall q, q <> Now -> head (R (story 200 busy)) q <> None) /\ length (uans (R (story 200 busy))) = 1%nat /\ length (concat (pub (R (story 200 busy)))) = 3%nat /\
  match step (story 200 busy) (at_ (21, 0)) OShutdown with
  | Ok (d1, RUnit) => match outs d1 soon with Ok (d2, ms) => map (fun m => length (answers_of m)) ms = [1; 3; 0; 0]%nat /\ mdnsd_free d2 = Ok [BDaemon] | _ => False end
  | _ => False
  end.
Proof.
  split; [apply story_reach|]. split; [vm_compute; reflexivity|]. split.
  { right. intros e I. assert (E : e = at_ (21, 0)) by (repeat (destruct I as [I|I]; [symmetry; exact I|]); destruct I). rewrite E. vm_compute. reflexivity. }
  split; [intros [] N; try contradiction; vm_compute; discriminate|]. split; [vm_compute; reflexivity|]. split; vm_compute; [reflexivity|split; reflexivity].
Qed.
