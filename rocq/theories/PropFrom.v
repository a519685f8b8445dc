(* The property of what answers say and who said it (C100). *)
From Verif Require Import Base Hash Wire Rec Qry Out In Api SpecDaemon SpecCache SpecFrom FactsFrom Scenario.

(* What is cached, and thus what mdnsd_list gives *)
Theorem C100_cached : forall t cls frm l d, 0 <= fst t -> history (mdnsd_new t cls frm) l d -> forall c, cache_holds d c -> heard_from l (c_rr c).
Proof. exact cache_heard. Qed.
Print Assumptions C100_cached.

(* What any callback was ever told, of records that came or went *)
Theorem C100_told : forall t cls frm l d, 0 <= fst t -> history (mdnsd_new t cls frm) l d -> forall p, In p (told (Q d)) -> heard_from l (snd p).
Proof. exact told_heard. Qed.
Print Assumptions C100_told.

(* A pointer from two senders, an IPv6 one, and a goodbye *)
Definition friend : addr := mkaddr AF_INET [10; 0; 0; 8] 5353.
Definition friend6 : addr := mkaddr AF_INET6 [254; 128; 0; 0; 0; 0; 0; 0; 0; 0; 0; 0; 0; 0; 0; 8] 5353.
Definition pointers : list (tv * op) :=
  [((1, 0), OQuery (nm 97) QTYPE_PTR (Some 7%nat)); ((1, 0), OIn (telling [rr_ptr (nm 97) 1 100 (nm 98)]) peer); ((2, 0), OIn (telling [rr_ptr (nm 97) 1 100 (nm 98)]) friend);
   ((3, 0), OIn (telling [rr_ptr (nm 97) 1 100 (nm 99)]) friend6); ((4, 0), OIn (telling [rr_ptr (nm 97) 1 0 (nm 98)]) friend)].
Definition gist (a : answer) : list Z * option (list Z) * list Z * list Z := (a_name a, a_rdname a, a_ip a, a_ip6 a).
Example C100_case : history (mdnsd_new (1, 0) 1 1400) (annals 1400 pointers) (story 1400 pointers) /\
  map (fun p => gist (snd p)) (told (Q (story 1400 pointers))) =
    [(nm 97, Some (nm 98), ip peer, zero16); (nm 97, Some (nm 99), zero4, ip friend6); (nm 97, Some (nm 98), ip peer, zero16)] /\
  map (fun c => gist (c_rr c)) (concat (cache (Q (story 1400 pointers)))) = [(nm 97, Some (nm 99), zero4, ip friend6)].
Proof. split; [apply annals_history|]. split; vm_compute; reflexivity. Qed.
