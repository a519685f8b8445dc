(* Property theorems C121: the list of interfaces.
   Vocabulary: SpecIfList.v.  Model: IfList.v. *)
From Verif Require Import Base IfList SpecIfList FactsIfList.

(* Whatever is done with the list, in whatever order: no freed memory is used and every
   loop ends; a loop visits each interface once, in the order in which they came,
   although its body may free the one it is at; a search finds the first of that name;
   memory is held for exactly the interfaces that were not freed. *)
Theorem C121_loops : forall os, exists w, performs start os = Ok (w, snd (ideals [] 0 os)) /\ holds_only w (fst (ideals [] 0 os)).
Proof. exact list_ideal. Qed.
Print Assumptions C121_loops.

(* The end of mdnsd: a loop that frees all, then iface_exit.  Nothing is left. *)
Theorem C121_end : forall os, exists w ss, performs start (os ++ [Loop (fun _ _ => true); Exit]) = Ok (w, ss) /\ forall x, cells w x = None.
Proof. exact list_empty. Qed.
Print Assumptions C121_end.

(* Four interfaces; a search that ends early; a loop that frees the first, one in the
   middle and the last; another interface; a loop that frees none *)
Definition busy : list op := [Add [97]; Add [98]; Add [99]; Add [100]; Find [98]; Loop (fun _ x => negb (Nat.eqb x 1)); Add [101]; Find [99]; Loop (fun _ _ => false)].
Example C121_case : ideals [] 0 busy = ([(1%nat, [98]); (4%nat, [101])], [Added 0; Added 1; Added 2; Added 3; Found (Some 1%nat); Visited [0; 1; 2; 3]%nat; Added 4; Found None; Visited [1; 4]%nat]) /\
  match performs start busy with Ok (w, ss) => ss = snd (ideals [] 0 busy) /\ first w = Some 1%nat /\ last w = Some 4%nat /\ cells w 2%nat = None | _ => False end.
Proof. split; [reflexivity|]. vm_compute. auto. Qed.

(* A body that frees the next interface instead, or looks for one by name, breaks the
   loop: memory is used after it was freed, or the loop never ends. *)
Definition two : res (world * list seen) := performs start [Add [97]; Add [98]].
Theorem C121_refuted_other : match two with
  | Ok (w, _) => visit (fun w _ x => if Nat.eqb x 0 then iface_free w 1 else Ok w) 10 w true [] = UB UseAfterFree
  | _ => False
  end.
Proof. vm_compute. reflexivity. Qed.
Print Assumptions C121_refuted_other.
Theorem C121_refuted_search : forall fuel, match two with
  | Ok (w, _) => visit (fun w _ _ => '(w, _) <- iface_find w [97];; Ok w) fuel w true [] = Hang
  | _ => False
  end.
Proof. exact never_ends. Qed.
Print Assumptions C121_refuted_search.
