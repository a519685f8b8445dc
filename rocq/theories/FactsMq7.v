(* Supporting proofs for PropMquery.v: sessions. *)
From Verif Require Import Base Lemmas Hash HashProofs Wire Rec Qry Out In Api Reent SpecDaemon SpecCache SpecReent ReentRuns Step SpecStep Mquery SpecMquery FactsMq FactsMq2 FactsMq3 FactsMq4 FactsMq5 FactsMq6 FactsMq8.

Lemma mq_safe : forall A (beh : behaviour A) a0 terminate wait start s e ready li lo t, adding beh (fun _ => True) -> session beh a0 terminate wait start s -> 0 <= fst (e_now e) -> reading li -> timed lo ->
  goes_well A beh a0 li lo (turn beh terminate wait start s e ready li lo t).
Proof.
  intros A beh a0 terminate wait start s e ready li lo t Ad K T Rl Tl. pose proof (turn_ok A beh (fun _ => True) a0 Ad Logic.I terminate wait start s e ready li lo t (session_sane A beh (fun _ => True) a0 Ad Logic.I _ _ _ _ K) T Rl Tl) as H.
  pose proof (turn_steady beh a0 Ad terminate wait start s e ready li lo t K T Rl Tl) as St.
  destruct (turn _ _ _ _ _ _ _ _ _ _) as [[[[s' sl] ps] v]| |[]|]; cbn; try exact H; try exact Logic.I; [apply H|]. intros L. exact (St L eq_refl).
Qed.

Section Ntop.
Variable ntop : Z -> list Z -> list Z.
Hypothesis ntop_short : forall f a, zlen (ntop f a) < INET6_ADDRSTRLEN.

Lemma session_tables : forall terminate wait start s, session (ans_dev ntop) no_tables terminate wait start s -> Forall short (told (Q (l_daemon s))) ->
  dev_inv ntop (told (Q (l_daemon s))) (l_prog s) /\ inst_inv (told (Q (l_daemon s))) (l_prog s).
Proof.
  intros terminate wait start s K F. destruct (session_registered (ans_dev ntop) (ans_dev_reg ntop) no_tables (ans_dev_total ntop) terminate wait start s K) as [Rp _]. exact (replay_inv ntop ntop_short _ _ F Rp).
Qed.

Lemma addresses_short : forall T h, Forall short T -> addresses_of ntop h T <> [] -> zlen h <= 255.
Proof.
  intros T h F. unfold addresses_of. induction F as [|[k x] T Sx F IH]; [intros []; reflexivity|]. cbn [flat_map]. intros N. destruct (addresses_in ntop h (k, x)) eqn:E; [apply IH; exact N|]. unfold addresses_in in E. cbn [snd] in E.
  destruct (negb (a_ttl x =? 0)); cbn [andb] in E; [|discriminate]. destruct (bytes_eqb (a_name x) h) eqn:B; [|discriminate]. apply bytes_eqb_eq in B. subst h. apply (proj1 Sx).
Qed.
Lemma device_fine : forall T s v, Forall short T -> dev_inv ntop T s -> In v (devices s) -> v_addrs v <> [] /\ zlen (v_host v) <= 255.
Proof.
  intros T s v F (_ & D2 & D3) I. assert (N : addresses_of ntop (v_host v) T <> []) by (apply D2; apply in_map; exact I). split; [|eapply addresses_short; eassumption]. rewrite (D3 v I). destruct (addresses_of ntop (v_host v) T) as [|a l]; [congruence|]. cbn [firsts firstn]. discriminate.
Qed.
Lemma product_fine : forall T s i, inst_inv T s -> In i (instances s) -> zlen (i_product i) <= 63.
Proof.
  intros T s i (_ & _ & D) I. destruct (D i I) as (_ & (o & _ & ->) & _). destruct o as [v|]; [|rewrite zlen_nil; lia]. unfold cut, zlen. pose proof (firstn_le_length (Z.to_nat (64 - 1)) v). lia.
Qed.

Lemma session_table : forall terminate wait start s, session (ans_dev ntop) no_tables terminate wait start s -> Forall short (told (Q (l_daemon s))) ->
  exists c1 c2 ls, print_devices (l_prog s) None = concat ls /\ Forall2 (fun v l => exists p, product_of (l_prog s) v p /\ rows c1 c2 v p l) (devices (l_prog s)) ls.
Proof.
  intros terminate wait start s K F. destruct (session_tables _ _ _ _ K F) as [D J]. destruct (print_devices_ok (l_prog s) None) as (c1 & c2 & ls & E & H).
  - intros v I. eapply device_fine; eassumption.
  - intros i I. eapply product_fine; eassumption.
  - exists c1, c2, ls. split; [exact E|]. replace (filter (shown None) (devices (l_prog s))) with (devices (l_prog s)) in H; [exact H|]. clear. induction (devices (l_prog s)) as [|v l IH]; [reflexivity|]. cbn [filter shown matches_detail]. f_equal. exact IH.
Qed.

Lemma session_detail : forall terminate wait start s given, session (ans_dev ntop) no_tables terminate wait start s -> Forall short (told (Q (l_daemon s))) ->
  (forall v, In v (devices (l_prog s)) -> exists x, no_dot x /\ v_host v = x ++ LOCAL) ->
  exists p, (forall v, In v (devices (l_prog s)) -> (p v = true <-> meant given (v_host v))) /\
    print_device_detail (l_prog s) (Some given) =
    map (fun v => (undotted (v_host v), v_addrs v, map (fun i => (service_of (i_name i), i_port i, i_product i, i_version i)) (filter (fun i => bytes_eqb (i_host i) (v_host v)) (instances (l_prog s)))))
        (filter p (devices (l_prog s))).
Proof.
  intros terminate wait start s given K F Hs. destruct (session_tables _ _ _ _ K F) as [D J]. exists (shown (Some given)). split.
  - intros v I. destruct (Hs v I) as (x & Nx & E). destruct (device_fine _ _ v F D I) as [_ L]. unfold shown. rewrite E in *. apply local_host; assumption.
  - unfold print_device_detail. assert (G : forall l, (forall v, In v l -> In v (devices (l_prog s))) -> flat_map (fun v => if matches_detail (Some given) (v_host v) then [(shortname (v_host v), v_addrs v, map detail_line (filter (fun i => bytes_eqb (i_host i) (v_host v)) (instances (l_prog s))))] else []) l =
      map (fun v => (undotted (v_host v), v_addrs v, map detail_line (filter (fun i => bytes_eqb (i_host i) (v_host v)) (instances (l_prog s))))) (filter (shown (Some given)) l)); [|apply G; auto].
    induction l as [|v l IH]; intros Sub; [reflexivity|]. cbn [flat_map filter]. rewrite IH by (intros w I; apply Sub; right; exact I). change (matches_detail (Some given) (v_host v)) with (shown (Some given) v).
    destruct (shown (Some given) v); [|reflexivity]. cbn [map app]. rewrite shortname_undotted; [reflexivity|]. eapply device_fine; [exact F|exact D|apply Sub; left; reflexivity].
Qed.
End Ntop.

Lemma session_listed : forall ntop terminate wait start s, session (ans ntop false) [] terminate wait start s -> l_prog s = flat_map (found_by ntop) (told (Q (l_daemon s))).
Proof.
  intros ntop terminate wait start s K. destruct (session_registered (ans ntop false) (ans_reg ntop false) [] (ans_total ntop false) terminate wait start s K) as [Rp _]. exact (ans_listed _ _ _ Rp).
Qed.
Lemma session_browses : forall ntop terminate wait start s, session (ans ntop false) [] terminate wait start s ->
  forall c n, In c (told (Q (l_daemon s))) -> fst c = PLAIN -> a_type (snd c) = QTYPE_PTR -> a_rdname (snd c) = Some n -> looked_up (l_daemon s) n QTYPE_PTR.
Proof.
  intros ntop terminate wait start s K [k x] n I E Ty Rd. cbn [fst snd] in *. destruct (session_registered (ans ntop false) (ans_reg ntop false) [] (ans_total ntop false) terminate wait start s K) as [_ G].
  apply in_split in I as (T1 & T2 & ET). destruct (G T1 k x T2 ET) as (a1 & a2 & l & rm & _ & B & H). unfold ans in B. cbn [negb] in B. rewrite Ty in B. change (QTYPE_PTR =? QTYPE_PTR) with true in B. cbv iota in B. cbn [negb] in B. rewrite Rd in B. subst k. change (Nat.eqb PLAIN PLAIN) with true in B. cbv iota in B. injection B as _ <- _.
  eapply H. left. reflexivity.
Qed.

Section Ends.
Context {A : Type} (beh : behaviour A) (a0 : A).
Lemma begin_last : forall t family name type (a : A) buf s, begin t family name type a buf = Ok s -> l_last s = 0.
Proof.
  intros t family name type a buf s E. unfold begin in E. cbv zeta in E. destruct (step _ _ (OSetFamily family)) as [[d x]| | |]; cbn [bind] in E; try discriminate.
  destruct (step _ _ _) as [[d' x']| | |]; cbn [bind] in E; try discriminate. injection E as <-. reflexivity.
Qed.
Lemma turn_ends : forall start s e ready li lo t s' sl ps v, session beh a0 true 0 start s -> turn beh true 0 start s e ready li lo t = Ok (s', sl, ps, v) ->
  (fst sl < 1 \/ sl = (1, 0)) /\ l_last s' = latest (l_last s) (if ready then li else []) /\
  (v = Done -> l_last s' <> 0 /\ l_last s' + 2 <= t) /\ (l_last s' <> 0 -> l_last s' + 2 <= t -> v <> Again).
Proof.
  intros start s e ready li lo t s' sl ps v _ E. apply turn_end in E as (E1 & E2 & E3). split; [apply E1; reflexivity|]. split; [exact E2|]. destruct v; split; intros; try discriminate; intuition.
Qed.
Lemma turn_waits : forall wait start s e ready li lo t s' sl ps v, session beh a0 false wait start s -> wait <> 0 -> turn beh false wait start s e ready li lo t = Ok (s', sl, ps, v) ->
  (v = Done -> start + wait <= t) /\ (start + wait <= t -> v <> Again).
Proof.
  intros wait start s e ready li lo t s' sl ps v _ N E. apply turn_end in E as (_ & _ & E3). destruct v; split; intros; try discriminate; intuition discriminate.
Qed.
End Ends.
