(* What message_parse returns is a message mdnsd_in can take. *)
From Verif Require Import Base Lemmas Wire WireSafe WireFacts Rec Qry Out In Api.

Lemma rdn_len : forall b o n l, 0 <= n -> rdn b o n = Ok l -> zlen l = n.
Proof.
  intros b o n l N E. unfold rdn in E. destruct (n <=? 0) eqn:Z; [injection E as <-; rewrite zlen_nil; lia|].
  destruct (_ && _); [|discriminate]. injection E as <-. unfold zlen. rewrite map_length, zseq_length. lia.
Qed.

Lemma net2long_nonneg : forall b p v p', bytebuf b -> net2long b p = Ok (v, p') -> 0 <= v.
Proof.
  intros b p v p' Hb E. unfold net2long in E.
  apply bind_ok in E. destruct E as (b0 & E0 & E). apply bind_ok in E. destruct E as (b1 & E1 & E). apply bind_ok in E. destruct E as (b2 & E2 & E). apply bind_ok in E. destruct E as (b3 & E3 & E).
  injection E as <- _. assert (R : forall o c, rd b o = Ok c -> 0 <= c).
  { intros o c K. unfold rd in K. destruct (_ && _); [|discriminate]. injection K as <-. apply (Hb o). }
  apply R in E0, E1, E2, E3.
  assert (K : forall x y, 0 <= x -> 0 <= y -> 0 <= Z.lor (Z.shiftl x 8) y) by (intros x y X Y; apply Z.lor_nonneg; split; [apply Z.shiftl_nonneg; exact X|exact Y]).
  apply K; [|exact E3]. apply K; [|exact E2]. apply K; [exact E0|exact E1].
Qed.

Lemma net2short_nonneg : forall b p v p', bytebuf b -> net2short b p = Ok (v, p') -> 0 <= v.
Proof.
  intros b p v p' Hb E. unfold net2short in E. apply bind_ok in E. destruct E as (b0 & E0 & E). apply bind_ok in E. destruct E as (b1 & E1 & E).
  injection E as <- _. apply Z.lor_nonneg. split; [apply Z.mod_pos_bound; lia|]. unfold rd in E1. destruct (_ && _); [|discriminate]. injection E1 as <-. apply (Hb (p + 1)).
Qed.

Lemma rr_parse1_wf : forall b psz s slot p s' p' r, bytebuf b -> rr_parse1 b psz s slot p = Ok (s', p', r) -> wf_resource r.
Proof.
  intros b psz s slot p s' p' r Hb H. unfold rr_parse1 in H.
  apply bind_ok in H. destruct H as ([[s1 p1] name] & _ & H). apply bind_ok in H. destruct H as (_ & _ & H).
  apply bind_ok in H. destruct H as ([ty p2] & _ & H). apply bind_ok in H. destruct H as ([cl p3] & _ & H).
  apply bind_ok in H. destruct H as ([ttl p4] & Ettl & H). apply net2long_nonneg in Ettl; [|exact Hb].
  apply bind_ok in H. destruct H as ([len p5] & Elen & H). apply net2short_nonneg in Elen; [|exact Hb].
  destruct (_ || _) in H; [discriminate|]. cbv zeta in H. apply bind_ok in H. destruct H as ([[s2 len2] data] & Ed & H).
  assert (D : len2 = zlen (opt_bytes data)).
  { destruct (_ || _) in Ed; [injection Ed as <- <- <-; reflexivity|]. apply bind_ok in Ed. destruct Ed as (_ & _ & Ed). apply bind_ok in Ed. destruct Ed as (l & El & Ed).
    injection Ed as <- <- <-. cbn [opt_bytes]. symmetry. eapply rdn_len; eauto. }
  clear Ed. unfold wf_resource, is_name_type.
  assert (Q : QTYPE_A = 1 /\ QTYPE_AAAA = 28 /\ QTYPE_NS = 2 /\ QTYPE_CNAME = 5 /\ QTYPE_PTR = 12 /\ QTYPE_SRV = 33) by (repeat split). destruct Q as (Q1 & Q2 & Q3 & Q4 & Q5 & Q6).
  rewrite ?Q1, ?Q2, ?Q3, ?Q4, ?Q5, ?Q6 in *.
  destruct (ty =? 1) eqn:T1.
  { destruct (_ <? _) in H; [discriminate|]. apply bind_ok in H. destruct H as (_ & _ & H). apply bind_ok in H. destruct H as (i & _ & H). injection H as _ _ <-.
    cbn [rr_ttl rr_rdlength rr_rdata rr_type rr_known]. repeat split; try assumption; try (intros; lia). intros _. eauto. }
  destruct (ty =? 28) eqn:T2.
  { destruct (_ <? _) in H; [discriminate|]. apply bind_ok in H. destruct H as (_ & _ & H). apply bind_ok in H. destruct H as (i & _ & H). injection H as _ _ <-.
    cbn [rr_ttl rr_rdlength rr_rdata rr_type rr_known]. repeat split; try assumption; try (intros; lia). intros _. eauto. }
  destruct ((ty =? 2) || (ty =? 5) || (ty =? 12)) eqn:T3.
  { apply bind_ok in H. destruct H as ([[s3 p6] tg] & _ & H). injection H as _ _ <-. cbn [rr_ttl rr_rdlength rr_rdata rr_type rr_known]. repeat split; try assumption; try (intros; lia). intros _. eauto. }
  destruct (ty =? 33) eqn:T4.
  { apply bind_ok in H. destruct H as ([pr p6] & _ & H). apply bind_ok in H. destruct H as ([we p7] & _ & H). apply bind_ok in H. destruct H as ([po p8] & _ & H).
    apply bind_ok in H. destruct H as ([[s3 p9] tg] & _ & H). injection H as _ _ <-. cbn [rr_ttl rr_rdlength rr_rdata rr_type rr_known]. repeat split; try assumption; try (intros; lia). intros _. eauto. }
  injection H as _ _ <-. cbn [rr_ttl rr_rdlength rr_rdata rr_type rr_known]. repeat split; try assumption; intros; lia.
Qed.

Lemma rr_parse_wf : forall n b psz s slot p s' p' rs, bytebuf b -> rr_parse b psz s n slot p = Ok (s', p', rs) -> Forall wf_resource rs.
Proof.
  induction n as [|n IH]; intros b psz s slot p s' p' rs Hb H; cbn [rr_parse] in H; [injection H as <- <- <-; constructor|].
  apply bind_ok in H. destruct H as ([[s1 p1] r] & H1 & H). apply bind_ok in H. destruct H as ([[s2 p2] rs'] & H2 & H). injection H as <- <- <-.
  constructor; [eapply rr_parse1_wf; eauto|eapply IH; eauto].
Qed.

Lemma message_parse_wf : forall b psz m s p, bytebuf b -> message_parse b psz = Ok (m, s, p) -> wf_message m.
Proof.
  intros b psz m s p Hb H. unfold message_parse in H.
  apply bind_ok in H. destruct H as ([id' p0] & _ & H). apply bind_ok in H. destruct H as (c0 & _ & H). apply bind_ok in H. destruct H as (c1 & _ & H). cbv zeta in H.
  apply bind_ok in H. destruct H as ([qd p1] & _ & H). destruct (_ <? _) in H; [discriminate|].
  apply bind_ok in H. destruct H as ([an p2] & _ & H). destruct (_ <? _) in H; [discriminate|].
  apply bind_ok in H. destruct H as ([ns p3] & _ & H). destruct (_ <? _) in H; [discriminate|].
  apply bind_ok in H. destruct H as ([ar p4] & _ & H). destruct (_ <? _) in H; [discriminate|].
  destruct (my (mkpst 0 [] []) (SIZEOF_QUESTION * qd)) as [s1 qa]. apply bind_ok in H. destruct H as ([[s2 p5] qs] & _ & H).
  destruct (my s2 (SIZEOF_RESOURCE * an)) as [s3 aa]. destruct (my s3 (SIZEOF_RESOURCE * ns)) as [s4 na]. destruct (my s4 (SIZEOF_RESOURCE * ar)) as [s5 ra].
  apply bind_ok in H. destruct H as ([[s6 p6] l1] & H1 & H). apply bind_ok in H. destruct H as ([[s7 p7] l2] & _ & H). apply bind_ok in H. destruct H as ([[s8 p8] l3] & _ & H).
  injection H as <- _ _. unfold wf_message. cbn [m_an]. eapply rr_parse_wf; eauto.
Qed.
