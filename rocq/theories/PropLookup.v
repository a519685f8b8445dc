(* Property theorems C21-C24: looking up records, queries and cached answers.
   Vocabulary: SpecDaemon.v.  Model: Rec.v, Qry.v. *)
From Verif Require Import Base Hash Wire Rec Qry Out In Api SpecDaemon Scenario FactsLookup.

(* ---- C21 ---- *)
Theorem C21_find : forall d name type, reach d -> exists o, mdnsd_find (R d) name type = Ok o /\
  match o with
  | Some r => published d r /\ exists X, record d r X /\ a_name (rr X) = name /\ a_type (rr X) = type
  | None => forall r X, published d r -> record d r X -> ~ (a_name (rr X) = name /\ a_type (rr X) = type)
  end.
Proof. exact published_find. Qed.
Print Assumptions C21_find.

(* "a.local." and "ca.local." are in the same bucket; of three records there
   one is withdrawn. *)
Definition clash : list Z := 99 :: nm 97.
Definition lodgers : list (tv * op) :=
  [((1, 0), OUnique (nm 97) QTYPE_A 100 (Some 0%nat)); ((1, 0), OShared clash QTYPE_A 100); ((1, 0), OShared clash QTYPE_TXT 100);
   ((1, 0), OShared (nm 98) QTYPE_TXT 100); ((2, 0), ODone 0)].
Example C21_case : length (replies 1400 lodgers) = 5%nat /\ rbucket clash = rbucket (nm 97) /\
  mdnsd_find (R (story 1400 lodgers)) clash QTYPE_A = Ok (Some 1%nat) /\ mdnsd_find (R (story 1400 lodgers)) (nm 97) QTYPE_A = Ok None.
Proof. split; [vm_compute; reflexivity|]. split; [vm_compute; reflexivity|]. split; vm_compute; reflexivity. Qed.

(* ---- C22 ---- *)
(* Missing: that only the host's records are returned, which is false. *)
Theorem C22_partial : forall d host, reach d ->
  NoDup (mdnsd_get_published (R d) host) /\
  (forall r, In r (mdnsd_get_published (R d) host) -> published d r) /\
  (forall r X, published d r -> record d r X -> a_name (rr X) = host -> In r (mdnsd_get_published (R d) host)).
Proof. exact published_listed. Qed.
Print Assumptions C22_partial.
Example C22_case : mdnsd_get_published (R (story 1400 lodgers)) clash = [2%nat; 1%nat].
Proof. vm_compute. reflexivity. Qed.

Theorem C22_refuted : exists d host r X, reach d /\ In r (mdnsd_get_published (R d) host) /\ record d r X /\ a_name (rr X) <> host.
Proof.
  exists (story 1400 lodgers), (nm 97), 1%nat, (mkmrec (new_answer clash QTYPE_A 100) 0 false 0 None (0, 0) None).
  split; [apply story_reach|]. split; [vm_compute; auto|]. split; [vm_compute; reflexivity|vm_compute; discriminate].
Qed.
Print Assumptions C22_refuted.

(* ---- C23 ---- *)
(* Exactly when true: some query of the same bucket is registered.  In
   particular it is true if a query for the host is.  Missing: the converse,
   which is false. *)
Theorem C23_partial : forall d host, reach d ->
  (mdnsd_has_query (Q d) host = true <-> exists x, registered d x /\ bucket_index (q_nm x) SPRIME = bucket_index host SPRIME).
Proof. exact has_query_bucket. Qed.
Print Assumptions C23_partial.

Definition asker : list (tv * op) :=
  [((1, 0), OQuery clash QTYPE_A (Some 0%nat)); ((1, 0), OQuery (nm 98) QTYPE_A (Some 1%nat)); ((1, 0), OQuery (nm 98) QTYPE_A None)].
Example C23_case : map (mdnsd_has_query (Q (story 1400 asker))) [clash; nm 98] = [true; false].
Proof. vm_compute. reflexivity. Qed.

Theorem C23_refuted : exists d host, reach d /\ mdnsd_has_query (Q d) host = true /\ forall x, registered d x -> q_nm x <> host.
Proof.
  exists (story 1400 [((1, 0), OQuery clash QTYPE_A (Some 0%nat))]), (nm 97). split; [apply story_reach|]. split; [vm_compute; reflexivity|].
  intros x (q & I & E). assert (J : In q [0%nat]) by (exact I). destruct J as [<-|[]]. vm_compute in E. injection E as <-. discriminate.
Qed.
Print Assumptions C23_refuted.

(* ---- C24 ---- *)
Theorem C24_list : forall d host type, reach d -> exists l, listing (mdnsd_list (Q d) host type) None l /\ NoDup l /\
  forall c, In c l <-> cache_holds d c /\ a_name (c_rr c) = host /\ (a_type (c_rr c) = type \/ type = QTYPE_ANY).
Proof. exact list_all. Qed.
Print Assumptions C24_list.

Definition hoarder : list (tv * op) :=
  [((1, 0), OIn (telling [rr_a (nm 97) 1 100 [10; 0; 0; 5]; rr_txt (nm 97) 1 50 [1; 65]; rr_a clash 1 100 [10; 0; 0; 5]; rr_a (nm 97) 1 100 [10; 0; 0; 6]]) peer)].
Example C24_case : exists a b, mdnsd_list (Q (story 1400 hoarder)) (nm 97) QTYPE_A None = Ok (Some a) /\ a_ip (c_rr a) = [10; 0; 0; 6] /\
  mdnsd_list (Q (story 1400 hoarder)) (nm 97) QTYPE_A (Some a) = Ok (Some b) /\ a_ip (c_rr b) = [10; 0; 0; 5] /\
  mdnsd_list (Q (story 1400 hoarder)) (nm 97) QTYPE_A (Some b) = Ok None.
Proof.
  eexists. eexists. split; [vm_compute; reflexivity|]. split; [vm_compute; reflexivity|]. split; [vm_compute; reflexivity|]. split; vm_compute; reflexivity.
Qed.
