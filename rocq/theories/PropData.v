(* Property theorem C94: records hold, and messages say, the data that was set.
   Vocabulary: SpecDaemon.v, SpecData.v.  Model: Rec.v, Out.v, Api.v. *)
From Verif Require Import Base Hash Wire Rec Qry Out In Api SpecDaemon SpecData Scenario FactsData.

(* ---- C94 ---- *)
(* A record holds what the calls since it was made say, one after the other; only
   the TTL may be 0 instead. *)
Theorem C94_data : forall t0 cls frm l d l1 ev l2 r h ty ttl X, 0 <= fst t0 -> history (mdnsd_new t0 cls frm) l d -> l = l1 ++ ev :: l2 -> makes ev r h ty ttl -> record d r X ->
  same_or_withdrawn (rr X) (fold_left (given r) l2 (fresh_data h ty ttl)).
Proof. exact data_given. Qed.
Print Assumptions C94_data.

(* So a message that has the record in it says the data of the last call that set
   any, if the data of the record was only ever set by calls of that kind. *)
Theorem C94_said : forall t0 cls frm l1 ev l2 ev' l3 d r h ty ttl X, 0 <= fst t0 -> history (mdnsd_new t0 cls frm) (l1 ++ ev :: l2 ++ ev' :: l3) d -> makes ev r h ty ttl ->
  suits (ev_call ev') r ty -> (forall e, In e l2 -> resets (ev_call e) r ty -> same_setter (ev_call e) (ev_call ev')) -> (forall e, In e l3 -> ~ resets (ev_call e) r ty) -> record d r X ->
  (a_ttl (rr X) = ttl \/ a_ttl (rr X) = 0) /\ forall sec cl, shown sec cl X = IRecord sec h ty cl (a_ttl (rr X)) (said (ev_call ev')).
Proof. exact data_said. Qed.
Print Assumptions C94_said.

(* A service set twice, an address set twice and a text that is withdrawn *)
Definition furnished : list (tv * op) :=
  [((1, 0), OUnique (nm 105) QTYPE_SRV 60 (Some 7%nat)); ((1, 0), OSetSrv 0 1 2 3 (nm 103)); ((1, 0), OShared (nm 116) QTYPE_TXT 70); ((1, 0), OSetRaw 1 [1; 97]);
   ((1, 0), OUnique (nm 104) QTYPE_A 80 (Some 8%nat)); ((1, 0), OSetIp 2 [10; 0; 0; 1]); ((2, 0), OOut); ((2, 0), OSetSrv 0 4 5 6 (nm 104)); ((3, 0), OOut); ((3, 0), OSetAddress [10; 0; 0; 2]); ((3, 0), ODone 1)].
Lemma skip_over : forall (A : Type) (a b : list A) x, skipn (S (length a)) (a ++ x :: b) = b.
Proof. intros A a b x. induction a as [|y a IH]; [reflexivity|exact IH]. Qed.
Lemma split_by : forall (A : list event) i j o x o', nth_error (map (fun ev => (ev_call ev, ev_result ev)) A) i = Some (o, x) -> nth_error (map ev_call A) j = Some o' -> (i < j)%nat ->
  exists l1 ev l2 ev' l3, A = l1 ++ ev :: l2 ++ ev' :: l3 /\ ev_call ev = o /\ ev_result ev = x /\ ev_call ev' = o' /\
    map ev_call l2 = firstn (j - S i) (skipn (S i) (map ev_call A)) /\ map ev_call l3 = skipn (S j) (map ev_call A).
Proof.
  intros A i j o x o' E1 E2 L. rewrite nth_error_map in E1, E2. destruct (nth_error A i) as [ev|] eqn:N1; [|discriminate]. destruct (nth_error A j) as [ev'|] eqn:N2; [|discriminate].
  cbn [option_map] in *. injection E1 as <- <-. injection E2 as <-. apply nth_error_split in N1. destruct N1 as (l1 & l & -> & <-).
  rewrite nth_error_app2 in N2 by lia. destruct (j - length l1)%nat as [|k] eqn:Ek; [lia|]. cbn [nth_error] in N2. apply nth_error_split in N2. destruct N2 as (l2 & l3 & -> & <-).
  exists l1, ev, l2, ev', l3. split; [reflexivity|]. split; [reflexivity|]. split; [reflexivity|]. split; [reflexivity|]. split.
  - rewrite map_app. cbn [map]. rewrite <- (map_length ev_call l1). rewrite skip_over, map_app, map_length. replace (j - S (length l1))%nat with (length (map ev_call l2)) by (rewrite map_length; lia).
    rewrite firstn_app, Nat.sub_diag. cbn [firstn]. rewrite app_nil_r, firstn_all. reflexivity.
  - replace (l1 ++ ev :: l2 ++ ev' :: l3) with ((l1 ++ ev :: l2) ++ ev' :: l3) by (rewrite <- app_assoc; reflexivity). rewrite map_app. cbn [map].
    replace (S j) with (S (length (map ev_call (l1 ++ ev :: l2)))) by (rewrite map_length, app_length; cbn [length]; lia). rewrite skip_over. reflexivity.
Qed.
Example C94_case : exists l1 ev l2 ev' l3 X, annals 1400 furnished = l1 ++ ev :: l2 ++ ev' :: l3 /\ makes ev 0 (nm 105) QTYPE_SRV 60 /\ suits (ev_call ev') 0 QTYPE_SRV /\
  (forall e, In e l2 -> resets (ev_call e) 0 QTYPE_SRV -> same_setter (ev_call e) (ev_call ev')) /\ (forall e, In e l3 -> ~ resets (ev_call e) 0 QTYPE_SRV) /\
  record (story 1400 furnished) 0 X /\ shown SAn 1 X = IRecord SAn (nm 105) QTYPE_SRV 1 60 [MSrv 4 5 6 (Some (nm 104))].
Proof.
  destruct (split_by (annals 1400 furnished) 0 7 (OUnique (nm 105) QTYPE_SRV 60 (Some 7%nat)) (RRec 0) (OSetSrv 0 4 5 6 (nm 104))) as (l1 & ev & l2 & ev' & l3 & E & E1 & E2 & E3 & E4 & E5).
  - vm_compute. reflexivity.
  - vm_compute. reflexivity.
  - lia.
  - exists l1, ev, l2, ev', l3. destruct (hp (R (story 1400 furnished)) 0%nat) as [X|] eqn:EX; [|vm_compute in EX; discriminate]. exists X. split; [exact E|]. split; [split; [exact E2|right; eexists; exact E1]|].
    rewrite E3. split; [split; reflexivity|]. assert (E4' : map ev_call l2 = [OSetSrv 0 1 2 3 (nm 103); OShared (nm 116) QTYPE_TXT 70; OSetRaw 1 [1; 97]; OUnique (nm 104) QTYPE_A 80 (Some 8%nat); OSetIp 2 [10; 0; 0; 1]; OOut])
      by (rewrite E4; vm_compute; reflexivity). assert (E5' : map ev_call l3 = [OOut; OSetAddress [10; 0; 0; 2]; ODone 1]) by (rewrite E5; vm_compute; reflexivity).
    split; [|split; [|split; [exact EX|]]].
    + intros e I. apply (in_map ev_call) in I. rewrite E4' in I. cbn [In] in I. intuition (match goal with K : _ = ev_call e |- _ => rewrite <- K in * end; cbn [resets same_setter] in *; try exact Logic.I; try contradiction; discriminate).
    + intros e I. apply (in_map ev_call) in I. rewrite E5' in I. cbn [In] in I. intuition (match goal with K : _ = ev_call e |- _ => rewrite <- K in * end; cbn [resets] in *; try contradiction; discriminate).
    + vm_compute in EX. injection EX as <-. vm_compute. reflexivity.
Qed.
(* The records at the end, and what is said of them *)
Example C94_case_all : map (fun r => match hp (R (story 1400 furnished)) r with Some X => Some (shown SAn 1 X) | None => None end) [0; 1; 2]%nat =
  [Some (IRecord SAn (nm 105) QTYPE_SRV 1 60 [MSrv 4 5 6 (Some (nm 104))]); Some (IRecord SAn (nm 116) QTYPE_TXT 1 0 [MRaw [1; 97]]); Some (IRecord SAn (nm 104) QTYPE_A 1 80 [MIp4 [10; 0; 0; 2]])].
Proof. vm_compute. reflexivity. Qed.
