(* Supporting proofs for PropMqExact.v. *)
From Verif Require Import Base Lemmas Hash Wire Rec Qry Out In Api Reent Step SpecStep SpecStepExact Mquery SpecMquery FactsMq3 SpecMqExact.

Lemma mq_receive_exact : forall A (beh : behaviour A) l s s' ok, (forall e b from, In (e, Datagram b from) l -> b = [] \/ self_contained b) -> mq_receive beh s l = Ok (s', ok) ->
  fed beh (l_daemon s) (l_prog s) (taken l) (l_daemon s') (l_prog s') /\ ok = negb (SpecStepExact.broken l) /\ l_last s' = latest (l_last s) l.
Proof.
  intros A beh l. induction l as [|[e x] l IH]; intros s s' ok Sc E; cbn [mq_receive taken SpecStepExact.broken latest] in *.
  - injection E as <- <-. repeat split. constructor.
  - destruct x as [b from|]; [|injection E as <- <-; repeat split; constructor].
    destruct (zlen b =? 0) eqn:Z0; [injection E as <- <-; repeat split; constructor|]. cbv zeta in E.
    assert (Sc' : forall e b from, In (e, Datagram b from) l -> b = [] \/ self_contained b) by (intros e' b' f' I; apply (Sc e' b' f'); right; exact I).
    assert (S : self_contained b) by (destruct (Sc e b from (or_introl eq_refl)) as [->|S]; [discriminate Z0|exact S]).
    rewrite (mq_fill_parse _ b S) in E. destruct (message_parse (mkbuffer (zlen b) (zget b)) MSG_BLOCK) as [[[m c] p]| | |]; try discriminate E.
    + apply bind_ok in E as ([[d1 a1] n1] & E1 & E). destruct (IH _ _ _ Sc' E) as (F & -> & La). cbn [l_daemon l_prog l_last] in F, La. repeat split; [|exact La]. econstructor; [exact E1|exact F].
    + destruct (IH _ _ _ Sc' E) as (F & -> & La). cbn [l_daemon l_prog l_last] in F, La. repeat split; assumption.
Qed.
Lemma mq_send_exact : forall A (beh : behaviour A) l d a d' a' ps ok, mq_send beh d a l = Ok (d', a', ps, ok) -> drained beh d a l d' a' ps ok.
Proof.
  intros A beh l. induction l as [|[e sent] l IH]; intros d a d' a' ps ok E; cbn [mq_send] in E; [discriminate|].
  apply bind_ok in E as ([[[d1 a1] m] n] & E1 & E). destruct (n =? 0) eqn:N0; [injection E as <- <- <- <-; apply Z.eqb_eq in N0 as ->; econstructor; exact E1|].
  apply Z.eqb_neq in N0. destruct (e_ovf (encode (o_calls m))); [discriminate|]. destruct sent.
  - apply bind_ok in E as ([[[d2 a2] ps2] ok2] & E2 & E). injection E as <- <- <- <-. eapply drained_more; [exact E1|exact N0|]. apply IH. exact E2.
  - injection E as <- <- <- <-. eapply drained_not; eassumption.
Qed.
Lemma finished_limit : forall terminate wait start last t, finished terminate wait start last t = true <-> limit terminate wait start last t.
Proof.
  intros terminate wait start last t. unfold finished, limit. destruct terminate; cbn [andb]; split.
  - intros E. apply orb_true_iff in E as [E|E]; apply andb_true_iff in E as [E1 E2]; [left; split; [reflexivity|]|right]; apply negb_true_iff in E1; lia.
  - intros [(_ & L)|L]; apply orb_true_iff; [left|right]; apply andb_true_iff; split; try (apply negb_true_iff); lia.
  - intros E. right. apply orb_true_iff in E as [E|E]; [discriminate|]. apply andb_true_iff in E as [E1 E2]. apply negb_true_iff in E1. lia.
  - intros [(H & _)|L]; [discriminate|]. apply orb_true_iff. right. apply andb_true_iff. split; [apply negb_true_iff|]; lia.
Qed.

Lemma turn_exact : forall A (beh : behaviour A) terminate wait start s e ready li lo t s' sl ps v, (forall e b from, In (e, Datagram b from) li -> b = [] \/ self_contained b) ->
  Mquery.turn beh terminate wait start s e ready li lo t = Ok (s', sl, ps, v) ->
  exists d0 t0 d1 a1, mdnsd_sleep (l_daemon s) e = Ok (d0, t0) /\ sl = (if terminate && (1 <=? fst t0) then (1, 0) else t0) /\
    fed beh d0 (l_prog s) (if ready then taken li else []) d1 a1 /\ l_last s' = (if ready then latest (l_last s) li else l_last s) /\
    if ready && SpecStepExact.broken li then v = Fails /\ ps = [] /\ l_daemon s' = d1 /\ l_prog s' = a1
    else exists sent, drained beh d1 a1 lo (l_daemon s') (l_prog s') ps sent /\ (v = Fails <-> sent = false) /\ (v = Done <-> sent = true /\ limit terminate wait start (l_last s') t).
Proof.
  intros A beh terminate wait start s e ready li lo t s' sl ps v Sc E. unfold Mquery.turn in E. apply bind_ok in E as ([d0 t0] & E0 & E). cbv zeta in E. apply bind_ok in E as ([s1 ok] & E1 & E).
  exists d0, t0, (l_daemon s1), (l_prog s1). split; [exact E0|].
  assert (X : fed beh d0 (l_prog s) (if ready then taken li else []) (l_daemon s1) (l_prog s1) /\ ok = negb (ready && SpecStepExact.broken li) /\ l_last s1 = if ready then latest (l_last s) li else l_last s).
  { destruct ready; [|injection E1 as <- <-; repeat split; constructor]. destruct (mq_receive_exact _ _ _ _ _ _ Sc E1) as (F & K & L). cbn [l_daemon l_prog l_last] in F, L. auto. }
  destruct X as (F & -> & L). rewrite negb_involutive in E. destruct (ready && SpecStepExact.broken li).
  - injection E as <- <- <- <-. repeat split; assumption.
  - apply bind_ok in E as ([[[d2 a2] ps2] ok2] & E2 & E). injection E as <- <- <- <-. cbn [l_daemon l_prog l_last]. split; [reflexivity|]. split; [exact F|]. split; [exact L|].
    exists ok2. split; [apply mq_send_exact; exact E2|]. destruct ok2; cbn [negb]; pose proof (finished_limit terminate wait start (l_last s1) t) as Fl; destruct (finished terminate wait start (l_last s1) t); (split; [split; intros H; (discriminate H || reflexivity)|]); split; intros H; try discriminate H; try reflexivity; try (destruct H as (H & H'); try discriminate H; apply Fl in H'; discriminate H'); (split; [reflexivity|apply Fl; reflexivity]).
Qed.
