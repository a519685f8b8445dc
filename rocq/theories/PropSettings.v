(* C118: the address of the host. *)
From Verif Require Import Base Lemmas Hash Wire Rec Qry Out In Api DaemonInv SpecDaemon SpecAddr Scenario Settings SpecSettings FactsSettings.

(* The getters return what was set last, zero at first. *)
Theorem C118_address : forall t0 cls frm l d, 0 <= fst t0 -> history (mdnsd_new t0 cls frm) l d -> mdnsd_get_address d = address_set l /\ mdnsd_get_ipv6_address d = address6_set l.
Proof. exact history_addr. Qed.
Print Assumptions C118_address.

(* Setting a new address puts it into all A records, and the address zero
   withdraws them; all else stays.  Setting the same address does nothing. *)
Theorem C118_records : forall t0 cls frm l d e i d' x, 0 <= fst t0 -> history (mdnsd_new t0 cls frm) l d -> legal d e (OSetAddress i) -> step d e (OSetAddress i) = Ok (d', x) ->
  (i = address_set l -> d' = d) /\ (i <> address_set l -> (all_zero i -> rewritten d d' QTYPE_A withdrawn_rr) /\ (~ all_zero i -> rewritten d d' QTYPE_A (with_ip i))).
Proof. exact address_all. Qed.
Print Assumptions C118_records.
Theorem C118_records6 : forall t0 cls frm l d e i d' x, 0 <= fst t0 -> history (mdnsd_new t0 cls frm) l d -> legal d e (OSetAddress6 i) -> step d e (OSetAddress6 i) = Ok (d', x) ->
  (i = address6_set l -> d' = d) /\ (i <> address6_set l -> (all_zero i -> rewritten d d' QTYPE_AAAA withdrawn_rr) /\ (~ all_zero i -> rewritten d d' QTYPE_AAAA (with_ip6 i))).
Proof. exact address6_all. Qed.
Print Assumptions C118_records6.

(* Two hosts, one with two addresses; then the address of the host is set. *)
Definition hosts : list (tv * op) := [((1, 0), OSetAddrs (nm 97) [[10; 0; 0; 1]; [10; 0; 0; 2]]); ((1, 0), OSetAddrs (nm 98) [[10; 0; 0; 3]])].
Example C118_case : history (mdnsd_new (1, 0) 1 1400) (annals 1400 hosts) (story 1400 hosts) /\ address_set (annals 1400 hosts) = [0; 0; 0; 0] /\ legal (story 1400 hosts) (at_ (2, 0)) (OSetAddress [10; 0; 0; 9]) /\
  match step (story 1400 hosts) (at_ (2, 0)) (OSetAddress [10; 0; 0; 9]) with
  | Ok (d, _) => map (fun r => match hp (R d) r with Some X => (a_name (rr X), a_ip (rr X)) | None => ([], []) end) [0; 1; 2]%nat = [(nm 97, [10; 0; 0; 9]); (nm 97, [10; 0; 0; 9]); (nm 98, [10; 0; 0; 9])]
  | _ => False
  end.
Proof. split; [apply annals_history|]. split; [vm_compute; reflexivity|]. split; [split; [cbn; lia|left; reflexivity]|]. vm_compute. reflexivity. Qed.

(* So a host with two addresses has one of them twice afterwards, as two records
   alike that are both published. *)
Theorem C118_refuted_twice : ~ (forall l d, history (mdnsd_new (1, 0) 1 1400) l d -> (forall ev, In ev l -> (exists h a, ev_call ev = OSetAddrs h a) \/ exists i, ev_call ev = OSetAddress i) ->
  forall r X r' X', record d r X -> record d r' X' -> a_name (rr X) = a_name (rr X') -> a_ip (rr X) = a_ip (rr X') -> a_ttl (rr X) <> 0 -> a_ttl (rr X') <> 0 -> r = r').
Proof.
  intros C. pose (l := hosts ++ [((2, 0), OSetAddress [10; 0; 0; 9])]). specialize (C (annals 1400 l) (story 1400 l) (annals_history 1400 l)).
  assert (Q : match hp (R (story 1400 l)) 0%nat, hp (R (story 1400 l)) 1%nat with Some X, Some Y => bytes_eqb (a_name (rr X)) (a_name (rr Y)) && bytes_eqb (a_ip (rr X)) (a_ip (rr Y)) && negb (a_ttl (rr X) =? 0) && negb (a_ttl (rr Y) =? 0) | _, _ => false end = true) by (vm_compute; reflexivity).
  destruct (hp (R (story 1400 l)) 0%nat) as [X|] eqn:EX; [|discriminate Q]. destruct (hp (R (story 1400 l)) 1%nat) as [Y|] eqn:EY; [|discriminate Q].
  rewrite !andb_true_iff in Q. destruct Q as [[[A B] D] E]. apply bytes_eqb_eq in A. apply bytes_eqb_eq in B.
  assert (N : 0%nat = 1%nat); [|discriminate N]. refine (C _ 0%nat X 1%nat Y EX EY A B _ _); try lia.
  intros ev I. apply (in_map ev_call) in I. assert (M : map ev_call (annals 1400 l) = map snd l) by (vm_compute; reflexivity). rewrite M in I. destruct I as [I|[I|[I|[]]]]; rewrite <- I; cbn [snd]; eauto.
Qed.
Print Assumptions C118_refuted_twice.

(* Nor has every A record the address of the host after it has been set: not if
   it was made since the address was set to the same before. *)
Theorem C118_refuted_same : ~ (forall l d e i d' x, history (mdnsd_new (1, 0) 1 1400) l d -> legal d e (OSetAddress i) -> ~ all_zero i -> step d e (OSetAddress i) = Ok (d', x) ->
  forall r X, record d' r X -> a_type (rr X) = QTYPE_A -> a_ip (rr X) = i).
Proof.
  intros C. pose (l := [((1, 0), OSetAddress [10; 0; 0; 9]); ((1, 0), OShared (nm 97) QTYPE_A 120)]).
  destruct (step (story 1400 l) (at_ (2, 0)) (OSetAddress [10; 0; 0; 9])) as [[d' x]| | |] eqn:E; try (vm_compute in E; discriminate E).
  assert (Q : match step (story 1400 l) (at_ (2, 0)) (OSetAddress [10; 0; 0; 9]) with Ok (d', _) => match hp (R d') 0%nat with Some X => (a_type (rr X) =? QTYPE_A) && negb (bytes_eqb (a_ip (rr X)) [10; 0; 0; 9]) | None => false end | _ => false end = true) by (vm_compute; reflexivity).
  rewrite E in Q. destruct (hp (R d') 0%nat) as [X|] eqn:EX; [|discriminate Q]. apply andb_true_iff in Q as [A B].
  rewrite (C (annals 1400 l) (story 1400 l) (at_ (2, 0)) [10; 0; 0; 9] d' x (annals_history 1400 l)) with (r := 0%nat) in B; try assumption; [vm_compute in B; discriminate B| | |lia].
  - split; [cbn; lia|left; reflexivity].
  - intros Z. specialize (Z 10 (or_introl eq_refl)). discriminate Z.
Qed.
Print Assumptions C118_refuted_same.

(* mdnsd_flush does not "flush all cached records". *)
Theorem C118_refuted_flush : ~ (forall l d host type, history (mdnsd_new (1, 0) 1 1400) l d -> mdnsd_list (Q (mdnsd_flush d)) host type None = Ok None).
Proof.
  intros C. pose (l := [((1, 0), OIn (telling [rr_a (nm 97) 1 10 [10; 0; 0; 5]]) peer)]). specialize (C (annals 1400 l) (story 1400 l) (nm 97) QTYPE_A (annals_history 1400 l)).
  vm_compute in C. discriminate C.
Qed.
Print Assumptions C118_refuted_flush.
