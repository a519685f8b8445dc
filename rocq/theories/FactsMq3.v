(* Supporting proofs for PropMquery.v: the main loop. *)
From Verif Require Import Base Lemmas Hash HashProofs Wire WireSafe Rec Qry Out In Api Reent SpecDaemon SpecReent ReentRuns ParseWf Step SpecStep FactsStep Mquery SpecMquery FactsMq FactsMq2.

Lemma mq_fill_parse : forall buf b, self_contained b -> message_parse (mkbuffer MAX_PACKET_LEN (mq_fill buf b)) MSG_BLOCK = message_parse (mkbuffer (zlen b) (zget b)) MSG_BLOCK.
Proof.
  intros buf b [L N]. assert (P : part (mkbuffer (zlen b) (zget b)) (mkbuffer MAX_PACKET_LEN (mq_fill buf b))).
  { split; cbn [b_size b_at]; [lia|]. intros i Hi. unfold mq_fill. replace ((0 <=? i) && (i <? Z.min (zlen b) MAX_PACKET_LEN)) with true by lia. reflexivity. }
  pose proof (message_parse_keeps _ _ P MSG_BLOCK) as K. unfold keeps in K. destruct (message_parse (mkbuffer (zlen b) (zget b)) MSG_BLOCK) as [a| |[]|]; try exact K. destruct (N off). reflexivity.
Qed.
Lemma mq_fill_bytes : forall buf b, (forall i, is_byte (buf i)) -> bytes b -> forall i, is_byte (mq_fill buf b i).
Proof.
  intros buf b B1 B2 i. unfold mq_fill. destruct (_ && _); [|apply B1]. unfold zget. destruct (_ && _); [|split; lia].
  destruct (nth_in_or_default (Z.to_nat i) b 0) as [I| ->]; [|split; lia]. unfold bytes in B2. rewrite Forall_forall in B2. apply B2. exact I.
Qed.

Section Session.
Variable A : Type.
Variable beh : behaviour A.
Variable I : A -> Prop.
Variable a0 : A.
Hypothesis Ad : adding beh I.
Hypothesis I0 : I a0.

Lemma adding_orderly : orderly beh I.
Proof. intros a k x Ia N. destruct (Ad a k x Ia N) as (a' & l & E & I' & F). exists a', l, false. split; [exact E|]. split; [exact I'|discriminate]. Qed.
Lemma in_ok : forall d a e m from, runs beh I a0 d a -> 0 <= fst (e_now e) -> wf_message m -> exists d' a' n, in_re beh d a e m from = Ok (d', a', n) /\ runs beh I a0 d' a'.
Proof.
  intros d a e m from K T W. destruct (program_safe A beh I a0 d a e adding_orderly I0 K T) as (_ & H & _). destruct (H m from W) as (d' & a' & n & E). exists d', a', n. split; [exact E|]. eapply runs_in; eassumption.
Qed.
Lemma out_ok : forall d a e, runs beh I a0 d a -> 0 <= fst (e_now e) -> exists d' a' m n, out_re beh d a e = Ok (d', a', m, n) /\ runs beh I a0 d' a'.
Proof.
  intros d a e K T. destruct (program_safe A beh I a0 d a e adding_orderly I0 K T) as (_ & _ & H). destruct (H (or_introl Ad)) as (d' & a' & m & n & E). exists d', a', m, n. split; [exact E|]. eapply runs_out; eauto.
Qed.
Lemma sleep_ok : forall d a e, runs beh I a0 d a -> 0 <= fst (e_now e) -> exists d' t, mdnsd_sleep d e = Ok (d', t) /\ runs beh I a0 d' a.
Proof.
  intros d a e K T. destruct (program_safe A beh I a0 d a e adding_orderly I0 K T) as (H & _). assert (L : legal d e OSleep) by (split; [exact T|exact Logic.I]). destruct (H _ L) as (d' & x & E).
  pose proof E as E'. cbn [step] in E'. apply bind_ok in E' as ([d1 t] & E1 & E2). injection E2 as <- <-. exists d1, t. split; [exact E1|]. eapply runs_call; [exact K|exact L|discriminate|discriminate|exact E].
Qed.

(* A state the loop can be in *)
Definition sane (s : loop A) : Prop := runs beh I a0 (l_daemon s) (l_prog s) /\ forall i, is_byte (l_buf s i).
(* A message that does not fit its packet *)
Definition too_big (lo : list (env * bool)) : Prop :=
  exists d a e sent d' a' m n, runs beh I a0 d a /\ In (e, sent) lo /\ out_re beh d a e = Ok (d', a', m, n) /\ n <> 0 /\ e_ovf (encode (o_calls m)) = true.

Lemma receive_ok : forall l s, sane s -> reading l ->
  match mq_receive beh s l with
  | Ok (s', _) => sane s'
  | UB (OobRead _) => ~ brings self_contained l
  | _ => False
  end.
Proof.
  induction l as [|[e x] l IH]; intros s K Rl; cbn [mq_receive]; [exact K|]. destruct x as [b from|]; [|exact K].
  destruct (zlen b =? 0) eqn:Z0; [exact K|]. cbv zeta. destruct (Rl e _ (or_introl eq_refl)) as [T Bb]. cbn in Bb. assert (Rl' : reading l) by (intros e' y J; apply Rl; right; exact J).
  destruct K as [K Hb]. assert (Hb' : forall i, is_byte (mq_fill (l_buf s) b i)) by (apply mq_fill_bytes; assumption).
  assert (Hb2 : bytebuf (mkbuffer MAX_PACKET_LEN (mq_fill (l_buf s) b))) by exact Hb'.
  pose proof (WireFacts.message_parse_any (mkbuffer MAX_PACKET_LEN (mq_fill (l_buf s) b)) MSG_BLOCK Hb2 ltac:(unfold MSG_BLOCK; lia)) as Any.
  assert (Br : brings self_contained ((e, Datagram b from) :: l) -> self_contained b /\ brings self_contained l).
  { intros B. split; [destruct (B _ (or_introl eq_refl)) as (e' & b' & f' & Eq & S); congruence|intros y J; apply B; right; exact J]. }
  destruct (message_parse _ _) as [[[m p] q]| |u|] eqn:Ep.
  - destruct (in_ok _ _ e m from K T (message_parse_wf _ _ _ _ _ Hb2 Ep)) as (d' & a' & n & E & K'). rewrite E. cbn [bind].
    specialize (IH (mkloop d' a' (mq_fill (l_buf s) b) (fst (e_now e))) (conj K' Hb') Rl').
    destruct (mq_receive beh _ l) as [[d2 rc]| |[]|]; try contradiction; [exact IH|intros B; apply IH; apply Br; exact B].
  - specialize (IH (mkloop (l_daemon s) (l_prog s) (mq_fill (l_buf s) b) (fst (e_now e))) (conj K Hb') Rl').
    destruct (mq_receive beh _ l) as [[d2 rc]| |[]|]; try contradiction; [exact IH|intros B; apply IH; apply Br; exact B].
  - destruct u as [o|o| |]; try contradiction. intros B. destruct (Br B) as [S _]. rewrite (mq_fill_parse _ b S) in Ep. destruct S as [_ S]. exact (S o Ep).
  - exact Any.
Qed.

Lemma send_ok : forall l d a, runs beh I a0 d a -> timed l ->
  match mq_send beh d a l with
  | Ok (d', a', _, _) => runs beh I a0 d' a'
  | UB (OobWrite _) => too_big l
  | Hang => True
  | _ => False
  end.
Proof.
  induction l as [|[e sent] l IH]; intros d a K Tl; cbn [mq_send]; [exact Logic.I|]. destruct (out_ok d a e K (Tl e sent (or_introl eq_refl))) as (d' & a' & m & n & E & K'). rewrite E. cbn [bind].
  destruct (n =? 0) eqn:N0; [exact K'|]. destruct (e_ovf (encode (o_calls m))) eqn:Ov; [exists d, a, e, sent, d', a', m, n; split; [exact K|]; split; [left; reflexivity|]; split; [exact E|]; split; [lia|exact Ov]|].
  destruct sent; [|exact K']. assert (Tl' : timed l) by (intros e' b J; apply (Tl e' b); right; exact J). specialize (IH d' a' K' Tl').
  destruct (mq_send beh d' a' l) as [[[[d2 a2] ps] ok]| |[]|]; cbn [bind]; try contradiction; try exact IH.
  destruct IH as (d3 & a3 & e3 & s3 & d4 & a4 & m4 & n4 & Q1 & Q2 & Q3). exists d3, a3, e3, s3, d4, a4, m4, n4. split; [exact Q1|]. split; [right; exact Q2|exact Q3].
Qed.

(* The calls of mdnsd_out return messages to the last. *)
Definition unending (d : daemon) (a : A) (lo : list (env * bool)) : Prop := mq_send beh d a lo = Hang.

Lemma turn_ok : forall terminate wait start s e ready li lo t, sane s -> 0 <= fst (e_now e) -> reading li -> timed lo ->
  match turn beh terminate wait start s e ready li lo t with
  | Ok (s', _, _, _) => sane s'
  | UB (OobRead _) => ready = true /\ ~ brings self_contained li
  | UB (OobWrite _) => too_big lo
  | Hang => exists d a, runs beh I a0 d a /\ mq_send beh d a lo = Hang
  | _ => False
  end.
Proof.
  intros terminate wait start s e ready li lo t [K Hb] T Rl Tl. unfold turn. destruct (sleep_ok _ _ e K T) as (d & sl & E & K'). rewrite E. cbn [bind]. set (s1 := mkloop d (l_prog s) (l_buf s) (l_last s)).
  assert (K1 : sane s1) by (split; assumption).
  assert (R1 : match (if ready then mq_receive beh s1 li else Ok (s1, true)) with Ok (s', _) => sane s' | UB (OobRead _) => ready = true /\ ~ brings self_contained li | _ => False end).
  { destruct ready; [|exact K1]. pose proof (receive_ok li s1 K1 Rl) as X. destruct (mq_receive beh s1 li) as [[s2 ok]| |[]|]; try contradiction; auto. }
  destruct (if ready then _ else _) as [[s2 ok]| |[]|]; cbn [bind]; try contradiction; try exact R1. destruct ok; cbn [negb]; [|exact R1]. destruct R1 as [K2 B2].
  pose proof (send_ok lo _ _ K2 Tl) as S. destruct (mq_send beh _ _ lo) as [[[[d3 a3] ps] ok]| |[]|] eqn:Es; cbn [bind]; try contradiction; [split; [exact S|exact B2]|exact S|]. exists (l_daemon s2), (l_prog s2). split; [exact K2|exact Es].
Qed.

Lemma begin_ok : forall t family name type buf, 0 <= fst t -> (forall i, is_byte (buf i)) -> exists s, begin t family name type a0 buf = Ok s /\ sane s.
Proof.
  intros t family name type buf T B. unfold begin. set (e := mkenv t 0 None (fun _ => false)). pose proof (runs_new beh I a0 t 1 1000 T) as K.
  assert (S : forall d o, runs beh I a0 d a0 -> (forall m from, o <> OIn m from) -> o <> OOut -> (forall d, legal d e o) -> exists d' x, step d e o = Ok (d', x) /\ runs beh I a0 d' a0).
  { intros d o K1 N1 N2 L. destruct (program_safe A beh I a0 d a0 e adding_orderly I0 K1 T) as (H & _). destruct (H o (L d)) as (d' & x & E). exists d', x. split; [exact E|]. eapply runs_call; try eassumption. apply L. }
  destruct (S _ (OSetFamily family) K) as (d1 & x1 & E1 & K1); [discriminate|discriminate|intros d; split; [exact T|exact Logic.I]|]. rewrite E1. cbn [bind].
  destruct (S _ (OQuery name type (Some PLAIN)) K1) as (d2 & x2 & E2 & K2); [discriminate|discriminate|intros d; split; [exact T|exact Logic.I]|]. rewrite E2. cbn [bind].
  eexists. split; [reflexivity|]. split; [exact K2|exact B].
Qed.

Lemma session_sane : forall terminate wait start s, session beh a0 terminate wait start s -> sane s.
Proof.
  intros terminate wait start s K. induction K as [t family name type buf s T Et B E|s e ready li lo t s' sl ps K IH T Rl Tl E].
  - destruct (begin_ok t family name type buf T B) as (s' & E' & H). rewrite E in E'. injection E' as <-. exact H.
  - pose proof (turn_ok terminate wait start s e ready li lo t IH T Rl Tl) as H. rewrite E in H. exact H.
Qed.
End Session.

Lemma ans_total : forall ntop simple, adding (ans ntop simple) (fun _ => True).
Proof.
  assert (Rg : forall n ty k, registering (n, ty, Some k)) by (intros n ty k; unfold registering; eauto).
  assert (Id : forall s, exists s' l, @Ok (list printed * list qcall * bool) (s, [], false) = Ok (s', l, false) /\ True /\ Forall registering l) by (intros s; exists s, []; repeat split; constructor).
  assert (Nm : forall x, named x -> a_type x = QTYPE_PTR \/ a_type x = QTYPE_SRV -> exists n, a_rdname x = Some n).
  { intros x N K. unfold named in N. destruct (a_rdname x) as [n|]; [eauto|]. destruct K as [K|K]; destruct N; try reflexivity; rewrite K; cbn [In]; auto 6. }
  intros ntop simple s k x _ N. unfold ans. destruct simple; cbn [negb].
  - destruct (_ =? QTYPE_A); [apply Id|]. destruct (_ =? QTYPE_AAAA); [apply Id|]. destruct (a_type x =? QTYPE_PTR) eqn:E1; [destruct (Nm x N) as (n & ->); [left; lia|apply Id]|].
    destruct (a_type x =? QTYPE_SRV) eqn:E2; [destruct (Nm x N) as (n & ->); [right; lia|apply Id]|apply Id].
  - destruct (a_type x =? QTYPE_PTR) eqn:E1; cbn [negb]; [|apply Id]. destruct (Nm x N) as (n & ->); [left; lia|]. eexists. eexists. split; [reflexivity|]. split; [exact Logic.I|]. destruct (Nat.eqb k PLAIN); repeat constructor. apply Rg.
Qed.

Definition no_invariant {A} (a : A) : Prop := True.
Lemma devices_turn : forall ntop terminate wait start s e ready li lo t, session (ans_dev ntop) no_tables terminate wait start s -> 0 <= fst (e_now e) -> reading li -> timed lo ->
  match turn (ans_dev ntop) terminate wait start s e ready li lo t with
  | Ok (s', _, _, _) => sane _ (ans_dev ntop) no_invariant no_tables s'
  | UB (OobRead _) => ready = true /\ ~ brings self_contained li
  | UB (OobWrite _) => too_big _ (ans_dev ntop) no_invariant no_tables lo
  | Hang => exists d a, runs (ans_dev ntop) no_invariant no_tables d a /\ mq_send (ans_dev ntop) d a lo = Hang
  | _ => False
  end.
Proof. intros ntop terminate wait start s e ready li lo t K. apply turn_ok; [apply ans_dev_total|exact Logic.I|]. eapply session_sane; [apply ans_dev_total|exact Logic.I|exact K]. Qed.
