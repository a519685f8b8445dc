(* Supporting proofs for PropMquery.v: lookups and the end of the loop. *)
From Verif Require Import Base Lemmas Hash Wire Rec Qry Out In Api Reent SpecDaemon SpecCache SpecReent ReentRuns Step SpecStep Mquery SpecMquery FactsMq FactsMq2 FactsMq3 FactsMq4.

Lemma short_app : forall T1 T2, Forall short (T1 ++ T2) -> Forall short T1.
Proof. intros T1 T2 F. apply Forall_app in F. apply F. Qed.

Section Lookups.
Variable ntop : Z -> list Z -> list Z.
Hypothesis ntop_short : forall f a, zlen (ntop f a) < INET6_ADDRSTRLEN.

(* The first answer that locates an instance asks for the addresses of its host. *)
Lemma located_calls : forall T1 a1 k x n h p a2 l rm, Forall short T1 -> short (k, x) -> replayed (ans_dev ntop) no_tables T1 a1 -> ans_dev ntop a1 k x = Ok (a2, l, rm) ->
  located n (k, x) (h, p) -> (forall c b, In c T1 -> ~ located n c b) -> In (h, QTYPE_A, Some PLAIN) l /\ In (h, QTYPE_AAAA, Some PLAIN) l.
Proof.
  intros T1 a1 k x n h p a2 l rm F Sx Rp E (Th & Ty & Nm & Rd & Nh & _) N. cbn [snd fst] in *. destruct (replay_inv ntop ntop_short T1 a1 F Rp) as [_ (_ & _ & I3)].
  unfold ans_dev in E. replace (a_ttl x =? 0) with false in E by (symmetry; apply Z.eqb_neq; exact Th). rewrite Ty in E. change (QTYPE_SRV =? QTYPE_PTR) with false in E. change (QTYPE_SRV =? QTYPE_SRV) with true in E. cbv iota in E.
  rewrite Rd in E. destruct h as [|c0 h]; [congruence|].
  assert (Hh : forall l' j, find_or_create_instance (instances a1) (a_name x) = (l', j) -> i_host (nth j l' no_instance) = []).
  { intros l' j Ef. unfold find_or_create_instance in Ef. destruct (index_of _ _) as [j'|] eqn:Ei.
    - injection Ef as <- <-. destruct (index_some i_name no_instance _ _ _ Ei) as (L & P & Fi). apply bytes_eqb_eq in P. assert (In (nth j' (instances a1) no_instance) (instances a1)) by (apply nth_In; exact L).
      destruct (I3 _ H) as ((o & Fo & Eo) & _). destruct o as [b|].
      + destruct Fo as (U1 & c & U2 & -> & Lc & _). exfalso. apply (N c b); [apply in_or_app; right; left; reflexivity|]. rewrite P, Nm in Lc. exact Lc.
      + injection Eo as Eo _. exact Eo.
    - injection Ef as <- <-. reflexivity. }
  destruct (find_or_create_instance _ _) as [l' j]. specialize (Hh l' j eq_refl). cbv zeta in E. rewrite Hh in E. injection E as _ <- _. split; [left|right; left]; reflexivity.
Qed.

Lemma session_lookups : forall terminate wait start s, session (ans_dev ntop) no_tables terminate wait start s -> let T := told (Q (l_daemon s)) in
  let asks := fun n ty => exists q, registered (l_daemon s) q /\ is_for q n ty in
  (forall c n, In c T -> there c -> a_type (snd c) = QTYPE_PTR -> a_rdname (snd c) = Some n -> n <> [] ->
     if Nat.eqb (fst c) PLAIN then asks n QTYPE_PTR else asks n QTYPE_SRV /\ asks n QTYPE_TXT) /\
  (Forall short T -> forall n h p, first_of (located n) T (Some (h, p)) -> asks h QTYPE_A /\ asks h QTYPE_AAAA).
Proof.
  intros terminate wait start s K T asks. destruct (session_registered (ans_dev ntop) (ans_dev_reg ntop) no_tables (ans_dev_total ntop) terminate wait start s K) as [_ G]. fold T in G. split.
  - intros [k x] n I Th Ty Rd Nn. cbn [fst snd] in *. apply in_split in I as (T1 & T2 & ET). destruct (G T1 k x T2 ET) as (a1 & a2 & l & rm & _ & E & H). unfold ans_dev in E.
    replace (a_ttl x =? 0) with false in E by (symmetry; apply Z.eqb_neq; exact Th). rewrite Ty in E. change (QTYPE_PTR =? QTYPE_PTR) with true in E. cbv iota in E. rewrite Rd in E. destruct n as [|c0 n]; [congruence|].
    destruct (Nat.eqb k PLAIN); injection E as _ <- _; [|split]; unfold asks.
    + eapply H. left. reflexivity.
    + eapply H. left. reflexivity.
    + eapply H. right. left. reflexivity.
  - intros F n h p (T1 & [k x] & T2 & ET & Lc & N). destruct (G T1 k x T2 ET) as (a1 & a2 & l & rm & Rp & E & H). rewrite ET in F.
    assert (Sx : short (k, x)) by (apply Forall_app in F as [_ F]; inversion F; assumption).
    destruct (located_calls T1 a1 k x n h p a2 l rm (short_app _ _ F) Sx Rp E Lc) as [H1 H2]; [intros c b I; apply N; exact I|]. unfold asks. split; eapply H; eassumption.
Qed.
End Lookups.

(* ---- the end of the loop ---- *)
Lemma receive_last : forall A (beh : behaviour A) li s s' ok, mq_receive beh s li = Ok (s', ok) -> l_last s' = latest (l_last s) li.
Proof.
  intros A beh. induction li as [|[e x] li IH]; intros s s' ok E; cbn [mq_receive latest] in *; [injection E as <- _; reflexivity|]. destruct x as [b from|]; [|injection E as <- _; reflexivity].
  destruct b as [|c b]; [injection E as <- _; reflexivity|]. replace (zlen (c :: b) =? 0) with false in E by (rewrite zlen_cons; pose proof (zlen_nonneg _ b); lia). cbv zeta in E.
  destruct (message_parse _ _) as [[[m p] q]| | |]; try discriminate.
  - destruct (in_re _ _ _ _ _ _) as [[[d a] n]| | |]; cbn [bind] in E; try discriminate. apply IH in E. exact E.
  - apply IH in E. exact E.
Qed.
Lemma turn_end : forall A (beh : behaviour A) terminate wait start s e ready li lo t s' sl ps v, turn beh terminate wait start s e ready li lo t = Ok (s', sl, ps, v) ->
  (terminate = true -> fst sl < 1 \/ sl = (1, 0)) /\ l_last s' = latest (l_last s) (if ready then li else []) /\
  match v with
  | Done => (terminate = true /\ l_last s' <> 0 /\ l_last s' + 2 <= t) \/ (wait <> 0 /\ start + wait <= t)
  | Again => ~ (terminate = true /\ l_last s' <> 0 /\ l_last s' + 2 <= t) /\ ~ (wait <> 0 /\ start + wait <= t)
  | Fails => True
  end.
Proof.
  intros A beh terminate wait start s e ready li lo t s' sl ps v E. unfold turn in E. destruct (mdnsd_sleep _ _) as [[d z]| | |]; cbn [bind] in E; try discriminate.
  set (s0 := mkloop d (l_prog s) (l_buf s) (l_last s)) in *.
  assert (L : forall s1 ok, (if ready then mq_receive beh s0 li else Ok (s0, true)) = Ok (s1, ok) -> l_last s1 = latest (l_last s) (if ready then li else [])).
  { intros s1 ok K. destruct ready; [apply receive_last in K; exact K|]. injection K as <- _. reflexivity. }
  assert (St : terminate = true -> fst (select_time terminate z) < 1 \/ select_time terminate z = (1, 0)).
  { intros ->. unfold select_time. cbn [andb]. destruct (1 <=? fst z) eqn:C; [right; reflexivity|left; lia]. }
  destruct (if ready then _ else _) as [[s1 ok]| | |]; cbn [bind] in E; try discriminate. specialize (L s1 ok eq_refl). destruct ok; cbn [negb] in E.
  2:{ injection E as <- <- _ <-. auto. }
  destruct (mq_send _ _ _ _) as [[[[d1 a1] ps1] ok]| | |]; cbn [bind] in E; try discriminate. cbn [l_last] in E. injection E as <- <- _ <-. split; [exact St|]. split; [exact L|].
  destruct ok; cbn [negb]; [|exact Logic.I]. cbn [l_last]. unfold finished. destruct terminate; cbn [andb orb]; destruct (l_last s1 =? 0) eqn:C1; cbn [negb andb orb]; destruct (2 <=? t - l_last s1) eqn:C2; destruct (wait =? 0) eqn:C3; cbn [negb andb orb]; destruct (wait <=? t - start) eqn:C4; cbn [orb]; (left; split; [reflexivity|lia]) || (right; lia) || (split; intros [? ?]; (discriminate || lia)).
Qed.
