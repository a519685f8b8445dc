(* A question about a published record is answered. *)
From Verif Require Import Base Lemmas Hash HashProofs Wire Rec Qry Out In Api RecInv RecSafe RecOps RecAddr OutSafe OutPub OutProbe OutExtra QryInv QryOps CacheOps QryReg QryLoop InSafe InLoop InResp OutAll OutSpec Shut DaemonInv SpecDaemon SpecLife SpecAnswer FactsCalls FactsItems FactsEvolve FactsIn FactsOut FactsFrame FactsDrain FactsFate FactsLife FactsSleep FactsSize FactsUni.

Lemma questions_queue : forall qd d e from did id an qs r X k, rinv (R d) qs -> (did = true -> ifs d = view d e) -> hp (R d) r = Some X -> probes X = false -> send_queue X = Some k ->
  In r (qs k) \/ (exists q, In q qd /\ targets d q r X /\ (is_disco q = true \/ known q an X = false)) ->
  exists s' i tm L b qs' Y, questions d e from did id qd an = Ok (answered d s' i tm (received d ++ L) b) /\ rinv s' qs' /\ hp s' r = Some Y /\ nolink Y = nolink X /\ In r (qs' k) /\
    (disco d = false -> (forall q, In q qd -> is_disco q = false) -> b = false) /\ (port from = 5353 -> forall u, In u (uans s') -> In u (uans (R d))).
Proof.
  induction qd as [|q qd IH]; intros d e from did id an qs r X k H D EX P S G.
  - cbn [questions]. exists (R d), (ifs d), (ifs_time d), [], (disco d), qs, X. rewrite app_nil_r. split; [destruct d; reflexivity|]. split; [exact H|]. split; [exact EX|]. split; [reflexivity|].
    destruct G as [G|(q & [] & _)]. auto.
  - destruct (question_spec d e from did id q qd an qs H D) as (s1 & i1 & tm1 & L1 & did1 & E1 & Ii & Di & H1 & A1 & F1 & U1 & C1 & _). cbv zeta in *. rewrite E1. set (me := is_me d e from) in *.
    assert (Wt : watching X = false) by (unfold watching; rewrite P; reflexivity).
    assert (Nl : ~ In r (loses me q an (hp (R d)) (InLoop.asked d q))).
    { intros I. apply loses_in in I; [|apply H]. destruct I as (X' & (_ & T & _) & _ & Y). rewrite EX in T. injection T as <-. unfold yields in Y. rewrite Wt in Y. discriminate. }
    destruct (proj1 (iff_refl (exists Y, hp s1 r = Some Y /\ nolink Y = nolink X))) as (Y & EY & NY).
    { pose proof (after_is _ _ _ r X A1 EX) as K. unfold vanish, upon in K. rewrite (proj2 (mem_false _ _) Nl) in K. exact K. }
    set (b1 := disco d || is_disco q && negb (match InLoop.asked d q with [] => true | _ => false end)) in *. set (d1 := answered d s1 i1 tm1 (received d ++ L1) b1) in *.
    assert (V1 : view d1 e = view d e).
    { unfold view, d1. destruct (e_ifs e) as [l|] eqn:Ee; [reflexivity|]. cbn [answered ifs]. destruct Ii as [->| ->]; [reflexivity|]. unfold view. rewrite Ee. reflexivity. }
    assert (D1 : did1 = true -> ifs d1 = view d1 e) by (intros K; rewrite V1; apply Di; exact K).
    pose proof NY as NY'. apply nolink_fields in NY' as (N1 & N2 & N3 & N4 & N5 & N6).
    assert (G1 : In r (fold_left (qmove me q an (hp (R d))) (InLoop.asked d q) qs k) \/ exists q, In q qd /\ targets d1 q r Y /\ (is_disco q = true \/ known q an Y = false)).
    { assert (Z : goes me q an (hp (R d)) (InLoop.asked d q) r = None \/ goes me q an (hp (R d)) (InLoop.asked d q) r = Some (Some k)).
      { unfold goes. destruct (mem r (InLoop.asked d q)); [|auto]. rewrite EX. unfold where_to, yields. rewrite Wt, S. cbn [andb]. destruct (is_disco q); [auto|]. destruct (InSafe.replies q an X); auto. }
      assert (In_q : In r (fold_left (qmove me q an (hp (R d))) (InLoop.asked d q) qs k) <-> lands (goes me q an (hp (R d)) (InLoop.asked d q) r) k (In r (qs k))).
      { apply qmoves_in; [apply asked_nodup; apply H|]. intros k'. apply (qk_nodup _ _ (ri_q _ _ H)). }
      destruct G as [G|(q' & [<-|Iq] & T & Kn)].
      - left. apply In_q. destruct Z as [->| ->]; [exact G|reflexivity].
      - left. apply In_q. unfold goes. replace (mem r (InLoop.asked d q)) with true.
        2:{ symmetry. apply mem_iff. apply asked_in; [apply H|]. destruct T as (T1 & T2 & T3). split; [exact T1|eauto]. }
        rewrite EX. unfold where_to, yields, InSafe.replies. rewrite Wt, S. cbn [andb negb]. destruct (is_disco q); [reflexivity|]. destruct Kn as [Kn|Kn]; [discriminate|]. rewrite Kn. reflexivity.
      - right. exists q'. split; [exact Iq|]. destruct T as (T1 & T2 & T3). split; [split; [exact T1|split; [exact EY|rewrite N1; exact T3]]|]. destruct Kn as [Kn|Kn]; [auto|right]. unfold known in *. rewrite N1. exact Kn. }
    assert (P1 : probes Y = false) by (rewrite (probes_as X Y N2); exact P). assert (S1 : send_queue Y = Some k) by (unfold send_queue in *; rewrite N2, N4; exact S).
    destruct (IH d1 e from did1 id an _ r Y k H1 D1 EY P1 S1 G1) as (s2 & i2 & tm2 & L2 & b2 & qs2 & Y2 & E2 & H2 & EY2 & NY2 & I2 & B2 & U2). cbn [d1 answered R received disco] in *.
    exists s2, i2, tm2, (L1 ++ L2), b2, qs2, Y2. split; [rewrite E2, app_assoc; reflexivity|]. split; [exact H2|]. split; [exact EY2|]. split; [congruence|]. split; [exact I2|]. split.
    + intros Z Nd. apply B2; [|intros q' I'; apply Nd; right; exact I']. unfold b1. rewrite Z, (Nd q (or_introl eq_refl)). reflexivity.
    + intros Pf u I. apply (U2 Pf) in I. rewrite U1 in I. apply in_app_iff in I as [I|I]; [|apply filter_In in I; apply I]. unfold unicasts in I. rewrite Pf in I. destruct (InLoop.asked d q); [destruct I|].
      destruct (loses _ _ _ _ _); [|destruct I]. rewrite Z.eqb_refl, orb_true_r in I. destruct I.
Qed.

(* The record's announcements are over and it is not being probed. *)
Definition settled_rec (X : mrec) : Prop := (unique X = 0 \/ unique X = 5) /\ 4 <= tries X.

Lemma question_queued : forall d e m from q r X, reach d -> legal d e (OIn m from) -> is_shutdown d = false -> foreign d e from -> h_qr (m_header m) = 0 -> In q (m_qd m) ->
  wants d q r X -> unique X = 0 \/ unique X = 5 -> 4 <= tries X ->
  q_name q = DISCO_NAME \/ ~ knows m q X ->
  exists d' n Y, step d e (OIn m from) = Ok (d', RInt n) /\ waits d' (if unique X =? 0 then Pause else Now) r /\ record d' r Y /\ unchanged Y X /\
    (disco d = false -> (forall q, In q (m_qd m) -> q_name q <> DISCO_NAME) -> disco d' = false) /\ (port from = 5353 -> uans (R d) = [] -> uans (R d') = []) /\
    is_shutdown d' = false /\ class d' = class d /\ frame d' = frame d /\ d_family d' = d_family d.
Proof.
  intros d e m from q r X K [N W] Sd F Qr Iq Wn U T Kn. destruct (reach_dinv d K) as (qs & H & _). destruct (in_enters d e m from Sd F) as (i & tm & I & E). cbv zeta in E. rewrite Qr in E.
  cbn [Z.eqb] in E. set (d1 := into (with_now d (e_now e)) (R d) i tm (received d)) in *. pose proof Wn as Tg. apply wants_iff in Tg. destruct Tg as (Tc & Tr & Tm).
  assert (P : probes X = false) by (unfold probes; destruct U as [-> | ->]; reflexivity).
  assert (S : send_queue X = Some (if unique X =? 0 then Pause else Now)) by (unfold send_queue; replace (tries X <? 4) with false by lia; destruct (unique X =? 0); reflexivity).
  destruct (questions_queue (m_qd m) d1 e from false (m_id m) (m_an m) qs r X _ H ltac:(discriminate) Tr P S) as (s' & i' & tm' & L & b & qs' & Y & E1 & H' & EY & NY & I' & B & Us).
  { right. exists q. split; [exact Iq|]. split; [split; [exact Tc|split; [exact Tr|exact Tm]]|]. destruct Kn as [Kn|Kn]; [left; apply bytes_eqb_eq; exact Kn|right].
    destruct (known q (m_an m) X) eqn:Z; [|reflexivity]. exfalso. apply Kn. apply known_iff; [exact W|exact Z]. }
  rewrite E1 in E. cbn [bind] in E. eexists. eexists. exists Y. split; [cbn [step]; rewrite E; reflexivity|]. match goal with |- waits ?D _ r /\ _ => set (d2 := D) end.
  split; [apply (waits_iff d2 qs' _ r H'); exact I'|]. split; [exact EY|]. apply nolink_fields in NY as (N1 & N2 & N3 & N4 & N5 & N6). split; [repeat split; assumption|]. split; [|split; [|repeat split]].
  - intros Z Nd. apply B; [exact Z|]. intros q' J. apply bytes_eqb_neq. apply Nd. exact J.
  - intros Pf Z. destruct (uans (R d2)) as [|u us] eqn:Eu; [reflexivity|]. exfalso. specialize (Us Pf u). cbn [d2 answered R] in Eu. rewrite Eu in Us. specialize (Us (or_introl eq_refl)). change (In u (uans (R d))) in Us. rewrite Z in Us. destruct Us.
  - exact Sd.
Qed.

Lemma answer_sent : forall d e d' m n r, reach d -> legal d e OOut -> step d e OOut = Ok (d', RMsg m n) -> is_shutdown d = false -> uans (R d) = [] -> disco d = false ->
  waits d Now r \/ (waits d Pause r /\ micros (t_pause (R d)) <= micros (e_now e)) ->
  multicasts r (mkevent d e OOut (RMsg m n) d') \/ full d m.
Proof.
  intros d e d' m n r K Lg E Sd Eu Dz W. destruct (reach_dinv d K) as (qs & H & C). destruct (out_given d e d' m n qs H C Lg E) as (qs' & O & H').
  assert (Ir : In r (qs Now) \/ In r (qs Pause) /\ pause_due (R d) qs (e_now e) = true).
  { destruct W as [W|[W Tm]]; apply (waits_iff d qs _ r H) in W; [auto|right]. split; [exact W|]. unfold pause_due. destruct (qs Pause); [destruct W|]. unfold tvdiff, micros in *. lia. }
  assert (Lv : exists k, In r (qs k)) by (destruct Ir as [I|[I _]]; eauto). destruct Lv as (k0 & I0). destruct (hp (R d) r) as [X|] eqn:EX; [|exfalso; exact (queue_live _ _ _ _ H I0 EX)].
  assert (So : forall l x Z, hp (R d) x = Some Z -> In x l -> In x (sent_of (disco d) (hp (R d)) l)).
  { intros l x Z EZ I. rewrite Dz. unfold sent_of. apply filter_In. split; [exact I|]. unfold OutSafe.holds. rewrite EZ. reflexivity. }
  assert (Full : forall a rest c q t, q <> Probing -> blocked (hp (R d)) (frame d) a rest -> In r rest -> qs q = t ++ rest -> a ++ c = o_calls m ->
     exists q y Y, q <> Probing /\ waits d q y /\ record d y Y /\ frame d <= packet_len (encode (o_calls m)) + rr_len (rr Y)).
  { intros a rest c q t Nq B I Q Em. destruct rest as [|y rest]; [destruct I|]. destruct B as (Y & EY & B). exists q, y, Y. split; [exact Nq|]. split; [|split; [exact EY|]].
    - apply (waits_iff d qs q y H). rewrite Q. apply in_or_app. right. left. reflexivity.
    - pose proof (mlen_app a c) as L. rewrite Em in L. unfold mlen in *. lia. }
  destruct O as [u us X0 added Eu' EX0 G|N restN P restP s' Eu' Sd' E1 E2 Dp A Ua Cf Bl|N restN P restP A restA s' added all seen Eu' Sd' D Eall Nall Eseen Af Ua Tp Tb Cf Tq G|N restN A restA s' l Eu' Sd' D E1 E2 El La Af Ua Cf Tp Tb Tq|N restN A restA s' q1 q' l m ret T V Eu' Sd' D E1 E2 El La Af Ua Cf Tp Tb Tq QO Ql Sh Zq Uq CK TO G]; try congruence.
  - destruct D as [D1 D2 D3 _ _ D6 _ D8]. set (m := mkomsg _ _ _ _) in *.
    assert (Sent : In r all -> multicasts r (mkevent d e OOut (RMsg m (zlen all)) (with_R (with_now d (e_now e)) s'))).
    { intros I. exists m, (zlen all), X. cbn [ev_call ev_result ev_before]. repeat (split; auto). unfold says, m. cbn [o_calls]. rewrite items_response. apply in_or_app. left. apply in_flat_map. exists r. split; [exact I|].
      unfold at_rec. rewrite EX. left. symmetry. apply shown_as_answer. }
    destruct Ir as [I|[I Du]].
    + rewrite D1 in I. apply in_app_or in I as [I|I]; [left; apply Sent; rewrite Eall; apply in_or_app; left; eapply So; eassumption|right].
      eapply (Full _ _ _ Now N); [discriminate|exact D6|exact I|exact D1|]. unfold m. cbn [o_calls]. rewrite Eall, !calls_of_app, <- !app_assoc. reflexivity.
    + rewrite D3 in I. apply in_app_or in I as [I|I]; [left; apply Sent; rewrite Eall, !in_app_iff; right; right; eapply So; eassumption|right].
      eapply (Full _ _ _ Pause A); [discriminate|exact (D8 Du)|exact I|exact D3|]. unfold m. cbn [o_calls]. rewrite Eall, !calls_of_app, <- !app_assoc. reflexivity.
  - destruct D as [D1 D2 D3 _ _ D6 _ D8]. right. destruct Ir as [I|[I Du]].
    + rewrite D1 in I. apply in_app_or in I as [I|I]; [exfalso; eapply So in I; [|exact EX]; rewrite E1 in I; destruct I|]. eapply (Full _ _ _ Now N); [discriminate|exact D6|exact I|exact D1|]. rewrite E1. reflexivity.
    + rewrite D3 in I. apply in_app_or in I as [I|I]; [exfalso; eapply So in I; [|exact EX]; rewrite E2 in I; destruct I|]. eapply (Full _ _ _ Pause A); [discriminate|exact (D8 Du)|exact I|exact D3|]. rewrite E1, E2. reflexivity.
  - destruct D as [D1 D2 D3 _ _ D6 _ D8]. right. destruct Ir as [I|[I Du]].
    + rewrite D1 in I. apply in_app_or in I as [I|I]; [exfalso; eapply So in I; [|exact EX]; rewrite E1 in I; destruct I|]. eapply (Full _ _ _ Now N); [discriminate|exact D6|exact I|exact D1|]. rewrite E1. reflexivity.
    + rewrite D3 in I. apply in_app_or in I as [I|I]; [exfalso; eapply So in I; [|exact EX]; rewrite E2 in I; destruct I|]. eapply (Full _ _ _ Pause A); [discriminate|exact (D8 Du)|exact I|exact D3|]. rewrite E1, E2. reflexivity.
Qed.


(* The question and the message that mdnsd_out makes next *)
Lemma question_answered : forall d e m from q r X, reach d -> legal d e (OIn m from) -> is_shutdown d = false -> foreign d e from -> h_qr (m_header m) = 0 -> In q (m_qd m) ->
  wants d q r X -> unique X = 0 \/ unique X = 5 -> 4 <= tries X -> ~ knows m q X ->
  0 <= snd (e_now e) -> port from = 5353 -> uans (R d) = [] -> disco d = false -> (forall q, In q (m_qd m) -> q_name q <> DISCO_NAME) -> ~ waits d Pause r ->
  exists d1 n, step d e (OIn m from) = Ok (d1, RInt n) /\ forall e' d2 m' n', legal d1 e' OOut -> step d1 e' OOut = Ok (d2, RMsg m' n') -> micros (e_now e) + 119 <= micros (e_now e') ->
    o_to m' = group (d_family d) /\ (o_qr m' = true /\ says m' (as_answer (class d) (r, X)) \/ full d1 m').
Proof.
  intros d e m from q r X K Lg Sd F Qr Iq Wn U T Kn Sn Pf Eu Dz Nd Np. destruct (question_queued d e m from q r X K Lg Sd F Qr Iq Wn U T (or_intror Kn)) as (d1 & n & Y & E & W & EY & NY & Dd & Ud & Sd1 & Cd & Fd & Ff).
  exists d1, n. split; [exact E|]. intros e' d2 m' n' L' E' Tm. assert (K1 : reach d1) by (eapply reach_step; [exact K|exact Lg|exact E]).
  assert (Q : waits d1 Now r \/ waits d1 Pause r /\ micros (t_pause (R d1)) <= micros (e_now e')).
  { destruct (unique X =? 0); [right|left; exact W]. split; [exact W|]. pose proof (in_delay_range d e m from d1 n r K Lg Qr Sn E W Np) as B. unfold remaining in B. lia. }
  split.
  - rewrite <- Ff. destruct (out_to d1 e' d2 m' n' K1 L' E') as [(_ & A & _)|(u & us & Y0 & A & _)]; [exact A|]. rewrite (Ud Pf Eu) in A. discriminate.
  - pose proof (answer_sent d1 e' d2 m' n' r K1 L' E' Sd1 (Ud Pf Eu) (Dd Dz Nd) Q) as [M|B]; [left|right; exact B].
    destruct M as (m0 & n0 & X0 & _ & Em & Qr' & _ & R0 & Sy). cbn [ev_result ev_before] in *. injection Em as <- <-. split; [exact Qr'|]. rewrite <- Cd. unfold record in *. rewrite EY in R0. injection R0 as <-.
    replace (as_answer (class d1) (r, X)) with (as_answer (class d1) (r, Y)); [exact Sy|]. destruct NY as (N1 & N2 & _). unfold as_answer, shown, flushing. cbn [snd]. rewrite !N1, !N2. reflexivity.
Qed.
