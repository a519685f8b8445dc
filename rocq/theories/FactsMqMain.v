(* Lemmas about the beginning of mquery, for C115. *)
From Verif Require Import Base Lemmas SpecDns Hash Wire WireSafe WireCalls WireCallsSpec WireRound WireSize Lib SpecLib FactsLib Log SpecLog FactsLog Rec Qry Out In Api Reent SpecReent SpecDaemon SpecStep Step SpecHear FactsHear SpecOptions FactsOptions Mquery SpecMquery FactsMq3 FactsMq7 Iface Main SpecMain FactsMain MqMain SpecMqMain.

Lemma mq_take_spec : forall c o, (mq_accepted o -> exists c', mq_take c o = MGoing c') /\ (~ mq_accepted o -> mq_take c o = MExits (mq_refusal o)).
Proof.
  intros [six dev term det ifn sim ty wt lg] o. destruct o as [| | | | |z|z|z| |z| |z]; cbn [mq_take mq_accepted mq_refusal]; try (solve [split; [eauto|tauto]]); try (solve [split; [intros []|intros _; reflexivity]]).
  unfold log_level. pose proof (log_value (l_level lg) 5 z) as E. destruct (mdnsd_log_level (l_level lg) z) as [v n]. cbn [fst] in E. rewrite <- E.
  destruct (v =? -1) eqn:K; split; intros; try lia; eauto.
Qed.
Lemma mq_exits : forall os c, (exists c', mq_options c os = MGoing c' /\ Forall mq_accepted os) \/
  (exists pre o post, os = pre ++ o :: post /\ Forall mq_accepted pre /\ ~ mq_accepted o /\ mq_options c os = MExits (mq_refusal o)).
Proof.
  induction os as [|o os IH]; intros c; cbn [mq_options]; [left; exists c; auto|]. destruct (mq_take_spec c o) as [T1 T2].
  assert (D : mq_accepted o \/ ~ mq_accepted o) by (destruct o; cbn [mq_accepted]; try tauto; lia).
  destruct D as [D|D].
  - destruct (T1 D) as (c' & E). rewrite E. destruct (IH c') as [(c2 & E2 & F)|(pre & o2 & post & -> & F & N & E2)].
    + left. exists c2. split; [exact E2|constructor; assumption].
    + right. exists (o :: pre), o2, post. repeat split; auto.
  - right. exists [], o, os. rewrite (T2 D). repeat split; auto.
Qed.

Lemma in_snoc : forall (A : Type) (l : list A) a x, In x (l ++ [a]) <-> In x l \/ a = x.
Proof. intros A l a x. rewrite in_app_iff. cbn [In]. tauto. Qed.
Lemma browses_snoc : forall os o, browses (os ++ [o]) <-> browses os \/ match o with QDevices | QDetail _ => True | _ => False end.
Proof.
  intros os o. unfold browses. split.
  - intros [K|(s & K)]; apply in_snoc in K as [K|K]; subst; eauto.
  - intros [[K|(s & K)]|K]; [left; apply in_snoc; auto|right; exists s; apply in_snoc; auto|]. destruct o as [| | | | |z|z|z| |z| |z]; try destruct K; [left|right; exists z]; apply in_snoc; auto.
Qed.
Lemma agrees_none : agrees [] mqconf0.
Proof.
  constructor; cbn; try (split; [discriminate|tauto]); try apply last_none.
  - split; [discriminate|]. intros [[]|(s & [])].
  - exists None. split; [apply last_none|reflexivity].
  - exists None. split; [apply last_none|reflexivity].
Qed.
Lemma agrees_snoc : forall os c o c', agrees os c -> mq_take c o = MGoing c' -> agrees (os ++ [o]) c'.
Proof.
  intros os [six dev term det ifn sim ty wt lg] o c' [A1 A2 A3 A4 A5 A6 (v7 & A7 & A7') (v8 & A8 & A8')] E. cbn [m_six m_devices m_terminate m_detail m_iface m_simple m_type m_wait] in *.
  pose proof (last_snoc _ _ detail_arg os _ o A5) as L5. pose proof (last_snoc _ _ iface_arg os _ o A6) as L6. pose proof (last_snoc _ _ type_arg os _ o A7) as L7. pose proof (last_snoc _ _ wait_arg os _ o A8) as L8.
  assert (K : forall six dev term det ifn sim ty wt lg, MGoing (mkmqconf six dev term det ifn sim ty wt lg) = MGoing c' -> (six = true <-> In QSix (os ++ [o])) -> (dev = true <-> browses (os ++ [o])) -> (term = true <-> In QTerminate (os ++ [o])) -> (sim = true <-> In QSimple (os ++ [o])) ->
     last_of detail_arg (os ++ [o]) det -> last_of iface_arg (os ++ [o]) ifn -> (exists v, last_of type_arg (os ++ [o]) v /\ ty = match v with Some n => n | None => QTYPE_PTR end) -> (exists v, last_of wait_arg (os ++ [o]) v /\ wt = match v with Some n => n | None => 0 end) -> agrees (os ++ [o]) c').
  { intros ? ? ? ? ? ? ? ? ? Q. injection Q as <-. intros. constructor; assumption. }
  destruct o; cbn [mq_take detail_arg iface_arg type_arg wait_arg] in *; try discriminate E; try (unfold log_level in E; destruct (mdnsd_log_level _ _) as [lv nl]; destruct (lv =? -1); [discriminate E|]);
    (apply (K _ _ _ _ _ _ _ _ _ E); try exact L5; try exact L6; [rewrite in_snoc|rewrite browses_snoc|rewrite in_snoc|rewrite in_snoc| |]; try (rewrite ?A1, ?A2, ?A3, ?A4; intuition discriminate);
     [eexists; split; [exact L7|try exact A7'; reflexivity]|eexists; split; [exact L8|try exact A8'; reflexivity]]).
Qed.
Lemma agrees_all : forall os pre c c', agrees pre c -> mq_options c os = MGoing c' -> agrees (pre ++ os) c'.
Proof.
  induction os as [|o os IH]; intros pre c c' A E; cbn [mq_options] in E; [injection E as <-; rewrite app_nil_r; exact A|]. destruct (mq_take c o) as [c1|] eqn:E1; [|discriminate E].
  change (o :: os) with ([o] ++ os). rewrite app_assoc. eapply IH; [eapply agrees_snoc; eassumption|exact E].
Qed.

Lemma prepare_stops : forall k pre o post ops routes, Forall mq_accepted pre -> ~ mq_accepted o -> mq_prepare k (pre ++ o :: post) ops routes = ([], Ends (mq_refusal o)).
Proof.
  intros k pre o post ops routes F N. unfold mq_prepare. assert (E : forall c, mq_options c (pre ++ o :: post) = MExits (mq_refusal o)).
  { induction F as [|x pre Hx F IH]; intros c; cbn [app mq_options].
    - rewrite (proj2 (mq_take_spec c o) N). reflexivity.
    - destruct (proj1 (mq_take_spec c x) Hx) as (c' & E). rewrite E. apply IH. }
  rewrite E. reflexivity.
Qed.
Lemma prepare_goes : forall k os ops routes, honest k -> Forall mq_accepted os ->
  match mq_prepare k os ops routes with
  | (tr, Ends code) => code = 1 /\ opened tr = [] /\ (chosen os routes None /\ tr = [] \/ refused tr (if existsb (fun o => match o with QSix => true | _ => false end) os then 10 else 2))
  | (tr, Starts p) =>
      agrees os (p_conf p) /\ (In QSix os /\ p_family p = AF_INET6 \/ ~ In QSix os /\ p_family p = AF_INET) /\ opened tr = [p_fd p] /\
      (exists name, chosen os routes (Some name) /\ prepared tr (p_fd p) (p_family p) name 1) /\
      (browses os /\ p_name p = DISCO_NAME /\ p_type p = QTYPE_PTR \/ ~ browses os /\ p_name p = hd DISCO_NAME ops /\ p_type p = m_type (p_conf p))
  end.
Proof.
  intros k os ops routes Hk F. unfold mq_prepare. destruct (mq_exits os mqconf0) as [(c & E & _)|(pre & o & post & -> & _ & N & _)].
  2: { exfalso. apply Forall_app in F as [_ F]. inversion F; subst. contradiction. }
  rewrite E. pose proof (agrees_all os [] _ _ agrees_none E) as A. cbn [app] in A.
  set (fam := if m_six c then AF_INET6 else AF_INET). set (ifn := match m_iface c with Some n => Some n | None => _ end).
  assert (Sx : existsb (fun o => match o with QSix => true | _ => false end) os = m_six c).
  { apply Bool.eq_iff_eq_true. rewrite (ag_six _ _ A), existsb_exists. split; [intros (x & I1 & I2); destruct x; try discriminate I2; exact I1|intros I1; exists QSix; auto]. }
  assert (Ef : (if existsb (fun o => match o with QSix => true | _ => false end) os then 10 else 2) = fam) by (rewrite Sx; unfold fam; destruct (m_six c); reflexivity). rewrite Ef.
  assert (Fa : fam = 2 \/ fam = 10) by (unfold fam; destruct (m_six c); auto).
  assert (Fs : In QSix os /\ fam = AF_INET6 \/ ~ In QSix os /\ fam = AF_INET).
  { unfold fam. pose proof (ag_six _ _ A) as X. destruct (m_six c); [left; split; [apply X|]; reflexivity|right; split; [intros J; apply X in J; discriminate J|reflexivity]]. }
  assert (Ch : chosen os routes (option_map (cut IFNAMSIZ) ifn)).
  { exists (m_iface c). split; [exact (ag_iface _ _ A)|]. unfold ifn. destruct (m_iface c); reflexivity. }
  unfold msock. destruct ifn as [n|]; cbn [option_map] in Ch.
  2: { cbn [Z.eqb Pos.eqb]. split; [reflexivity|]. split; [reflexivity|]. left. split; [exact Ch|reflexivity]. }
  destruct (multicast_socket k [] (cut IFNAMSIZ n) 0 fam) as [tr sd] eqn:Es.
  pose proof (proper_nil 0) as P0.
  destruct (socket_spec k [] _ 0 fam tr sd Hk Fa P0 (NoDup_nil _) Es) as (_ & _ & _ & [(P & O1 & Pr)|(N & O1 & Rf)]).
  - replace (sd =? -1) with false by lia. assert (Bw : browses os \/ ~ browses os) by (pose proof (ag_dev _ _ A) as X; destruct (m_devices c); [left; apply X; reflexivity|right; intros J; apply X in J; discriminate J]).
    pose proof (ag_dev _ _ A) as X. destruct (m_devices c); (split; [exact A|split; [exact Fs|split; [exact O1|split; [exists (cut IFNAMSIZ n); split; [exact Ch|exact Pr]|]]]]); cbn [p_name p_type p_conf].
    + left. split; [apply X; reflexivity|auto].
    + right. split; [intros J; apply X in J; discriminate J|]. split; [destruct ops; reflexivity|reflexivity].
  - replace (sd =? -1) with true. { split; [reflexivity|]. split; [exact O1|]. right. exact Rf. }
    symmetry. unfold multicast_socket in Es. destruct (k [] (ASocket fam) <? 0) eqn:B; [injection Es as _ <-; reflexivity|]. destruct (negb _); injection Es as _ <-; [reflexivity|lia].
Qed.

(* ---- the first packet ---- *)
Record virgin (d : daemon) (family : Z) (name : list Z) (type t0 : Z) : Prop := mkvirgin {
  vi_R : R d = recs_new; vi_fam : d_family d = family; vi_frm : frame d = 1000; vi_cls : class d = 1; vi_sd : is_shutdown d = false;
  vi_list : qlist (Q d) = [0%nat]; vi_fresh : qfresh (Q d) = 1%nat; vi_q : qh (Q d) 0%nat = Some (mkquery name type t0 0 PLAIN); vi_check : checkq (Q d) = t0; vi_cache : forall i, nth i (cache (Q d)) [] = []
}.
Lemma nth_empty : forall (A : Type) n i, nth i (repeat ([] : list A) n) [] = [].
Proof. intros A n. induction n as [|n IH]; intros [|i]; try reflexivity. apply IH. Qed.
Lemma begin_virgin : forall A t family name type (a : A) buf s, begin t family name type a buf = Ok s -> virgin (l_daemon s) family name type (fst t) /\ l_prog s = a.
Proof.
  intros A t family name type a buf s E. unfold begin in E. cbn [step bind] in E. unfold mdnsd_query, q_find in E. cbn [with_family mdnsd_new Q qtab qrys_new] in E. rewrite nth_empty in E. cbn [find_query bind] in E.
  unfold q_reset, qget in E. change (qfresh qrys_new) with 0%nat in E. change (cache qrys_new) with (repeat (@nil cached) (Z.to_nat LPRIME)) in E. unfold centries in E. cbn [qh qfresh Nat.eqb bind q_nm q_ty cache qrys_new qlist] in E.
  rewrite nth_empty in E. cbn [map] in E. set (qt := upd (repeat [] (Z.to_nat SPRIME)) _ _) in E. set (ct := upd (repeat [] (Z.to_nat LPRIME)) _ _) in E.
  assert (Z0 : forall i, nth i ct [] = []).
  { assert (G : forall n k j, nth j (upd (repeat ([] : list cached) n) k []) [] = []) by (induction n as [|n IH]; intros [|k] [|j]; try reflexivity; cbn [repeat upd nth]; [apply nth_empty|apply IH]). intros i. apply G. }
  rewrite Z0 in E. clearbody qt ct. cbn in E. injection E as <-. cbn [l_daemon l_prog]. split; [|reflexivity].
  constructor; try reflexivity. exact Z0.
Qed.
Lemma virgin_now : forall d family name type t0 t, virgin d family name type t0 -> virgin (with_now d t) family name type t0.
Proof. intros d family name type t0 t [? ? ? ? ? ? ? ? ? ?]. constructor; assumption. Qed.
Lemma virgin_sleep : forall d family name type t0 e d' sl, virgin d family name type t0 -> mdnsd_sleep d e = Ok (d', sl) -> 0 < t0 -> virgin d' family name type t0.
Proof.
  intros d family name type t0 e d' sl V E P. unfold mdnsd_sleep in E. rewrite (vi_R _ _ _ _ _ V) in E. cbn [recs_new uans a_now] in E. cbv zeta in E.
  assert (Er : R (with_now d (e_now e)) = recs_new) by exact (vi_R _ _ _ _ _ V). assert (Ec : checkq (Q (with_now d (e_now e))) = t0) by exact (vi_check _ _ _ _ _ V). rewrite Er in E. cbn [recs_new a_pause probing a_publish] in E. rewrite Ec in E.
  replace (t0 =? 0) with false in E by lia. cbn [negb] in E. injection E as <- _. apply virgin_now. exact V.
Qed.
Lemma virgin_out : forall A (beh : behaviour A) d a e family name type t0 d' a' m n, virgin d family name type t0 -> 0 < t0 <= fst (e_now e) -> out_re beh d a e = Ok (d', a', m, n) ->
  m = mkomsg (mcast family) 0 false [MQd name type 1] /\ n = 1.
Proof.
  intros A beh d a e family name type t0 d' a' m n [V1 V2 V3 V4 V5 V6 V7 V8 V9 V10] T E. unfold out_re, out_first in E. cbv zeta in E.
  change (R (with_now d (e_now e))) with (R d) in E. rewrite V1 in E. cbn [recs_new uans] in E.
  change (r_out (qfuel recs_new) recs_new (e_now e) (frame (with_now d (e_now e))) (class (with_now d (e_now e))) (disco (with_now d (e_now e))) Now [] [] 0) with (Ok (recs_new, @nil mcall, @nil nat, 0)) in E. cbn [bind] in E.
  change (out_publish recs_new (e_now e) (frame (with_now d (e_now e))) (class (with_now d (e_now e))) [] [] 0) with (Ok (recs_new, @nil mcall, @nil nat, 0)) in E. cbn [bind] in E.
  change (is_shutdown (with_now d (e_now e))) with (is_shutdown d) in E. rewrite V5 in E. cbn [recs_new a_pause bind additionals Z.eqb negb out_probe probing] in E.
  cbn [with_R with_now Q frame class expireall d_family] in E. rewrite V3, V4, V2 in E.
  unfold out_query_re in E. rewrite V9, V6, V7 in E. replace (negb (t0 =? 0) && (t0 <=? fst (e_now e))) with true in E by lia.
  cbn [query_ask] in E. unfold qget at 1 in E. rewrite V8 in E. cbn [bind q_next q_tries q_nm q_ty] in E. replace ((0 <? t0) && (t0 <=? fst (e_now e)) && (0 <? 3)) with true in E by lia. cbn [app bind hd_error query_loop_re] in E.
  unfold qget at 1 in E. rewrite V8 in E. cbn [bind q_next q_tries q_nm q_ty] in E. replace ((t0 =? 0) || (fst (e_now e) <? t0)) with false in E by lia. cbn [Z.eqb] in E.
  unfold centries in E. cbn [qset cache] in E. rewrite V10 in E. cbn [known_answers] in E. unfold q_link, qget in E. cbn [qset set_qh qh Nat.eqb bind qlist] in E. rewrite ?V6 in E. cbn [tail_after Nat.eqb hd_error bind query_loop_re] in E.
  destruct (expireall d <? fst (e_now e)).
  - destruct (gc_re beh _ _ _ _) as [[q' a2]| | |]; try discriminate E. cbn [bind] in E. injection E as _ _ <- <-. split; reflexivity.
  - injection E as _ _ <- <-. split; reflexivity.
Qed.

Lemma first_packet : forall A (beh : behaviour A) t p (a : A) buf s terminate wait began e li e1 sent lo tend s' sl ps v,
  mq_begin t p a buf = Ok s -> 0 < fst t <= fst (e_now e1) -> Mquery.turn beh terminate wait began s e false li ((e1, sent) :: lo) tend = Ok (s', sl, ps, v) ->
  exists ps', ps = packet_of (mkomsg (mcast (p_family p)) 0 false [MQd (p_name p) (p_type p) 1]) :: ps'.
Proof.
  intros A beh t p a buf s terminate wait began e li e1 sent lo tend s' sl ps v B T E. unfold mq_begin in B. apply begin_virgin in B as (V & <-). unfold Mquery.turn in E.
  destruct (mdnsd_sleep (l_daemon s) e) as [[d1 sl1]| | |] eqn:E1; try discriminate E. cbn [bind negb l_daemon l_prog] in E. pose proof (virgin_sleep _ _ _ _ _ _ _ _ V E1 ltac:(lia)) as V1.
  cbn [mq_send] in E. destruct (out_re beh d1 (l_prog s) e1) as [[[[d2 a2] m] n]| | |] eqn:E2; try discriminate E. cbn [bind] in E. destruct (virgin_out _ _ _ _ _ _ _ _ _ _ _ _ _ V1 T E2) as (-> & ->). cbn [Z.eqb o_calls] in E.
  destruct (e_ovf _); [discriminate E|]. destruct sent.
  - destruct (mq_send beh d2 a2 lo) as [[[[d3 a3] ps3] ok]| | |]; try discriminate E. cbn [bind] in E. destruct (negb ok); injection E as _ _ <- _; eauto.
  - cbn [bind negb] in E. injection E as _ _ <- _. eauto.
Qed.
Lemma question_read : forall tld l type family b, legal_name l -> ends_only_in tld l -> 0 <= type < 65536 ->
  let pk := snd (packet_of (mkomsg (mcast family) 0 false [MQd (dotted l) type 1])) in
  bytebuf b -> zlen pk <= b_size b -> (forall i, 0 <= i < zlen pk -> b_at b i = zget pk i) ->
  exists s n, message_parse b MSG_BLOCK = Ok (mkmessage 0 (mkheader 0 0 0 0 0 0 0 0) [mkquestion (dotted l) type 1] [] [] [], s, n).
Proof.
  intros tld l type family b Ll Le Ht pk Hb Hs Hat. set (q := mkquest l type 1).
  assert (Enc : encode [MQd (dotted l) type 1] = run (message_calls [q] [] [] [])) by reflexivity.
  assert (Hh : legal_header (out_header (mkomsg (mcast family) 0 false [MQd (dotted l) type 1]))) by (unfold out_header; cbn [o_qr]; unfold legal_header, bit; cbn [h_qr h_opcode h_aa h_tc h_rd h_ra h_z h_rcode]; lia).
  assert (P12 : 12 <= packet_len (run (message_calls [q] [] [] []))) by (unfold run; pose proof (fold_call_mono (message_calls [q] [] [] []) enc_empty) as M; change (packet_len enc_empty) with 12 in M; exact M).
  assert (PL : zlen pk = packet_len (run (message_calls [q] [] [] []))) by (unfold pk, packet_of; cbn [snd o_calls]; rewrite Enc; apply header_len; exact P12).
  rewrite PL in *. destruct (message_roundtrip_small tld [q] [] [] [] 0 (out_header (mkomsg (mcast family) 0 false [MQd (dotted l) type 1])) b MSG_BLOCK) as (s & Ep).
  - constructor; [|constructor]. split; [exact Ht|split; cbn; lia].
  - constructor.
  - intros n [<-|[]]. split; assumption.
  - unfold wire_size, quest_wire_size. cbn [map sum fold_right qname app]. unfold q, name_size. cbn [qname]. destruct Ll as (_ & _ & Ll). lia.
  - split; lia.
  - exact Hh.
  - exact Hb.
  - exact Hs.
  - unfold MSG_BLOCK; lia.
  - intros i Hi. rewrite (Hat i Hi). unfold pk, packet_of. cbn [snd o_calls]. rewrite Enc. reflexivity.
  - exists s. eexists. exact Ep.
Qed.

(* ---- the whole loop ---- *)
Lemma loop_runs : forall A (beh : behaviour A) a0 terminate wait start l s, adding beh (fun _ => True) -> session beh a0 terminate wait start s -> Forall usual l ->
  match mq_loop beh terminate wait start s l with
  | Ok (s', ps, None) => session beh a0 terminate wait start s'
  | Ok (s', ps, Some c) => c = 0 \/ c = 1
  | UB (OobWrite _) => exists i, In i l /\ overfull A beh a0 (i_send i)
  | _ => False
  end.
Proof.
  intros A beh a0 terminate wait start l s Ad K F. revert s K. induction F as [|i l (T & Rd & Br & Tm & St) F IH]; intros s K; cbn [mq_loop]; [exact K|].
  pose proof (mq_safe A beh a0 terminate wait start s (i_env i) (i_ready i) (i_recv i) (i_send i) (i_end i) Ad K T Rd Tm) as G. unfold goes_well in G.
  destruct (Mquery.turn _ _ _ _ _ _ _ _ _ _) as [[[[s1 sl] ps] v]| |[]|] eqn:E; cbn [bind]; try contradiction; try (exists i; split; [left; reflexivity|exact G]).
  destruct v; auto. assert (K1 : session beh a0 terminate wait start s1) by (eapply session_turn; eassumption). specialize (IH s1 K1).
  destruct (mq_loop beh terminate wait start s1 l) as [[[s2 ps2] [c|]]| |[]|]; cbn [bind]; try contradiction; auto. destruct IH as (j & J & O). exists j. split; [right; exact J|exact O].
Qed.

Lemma loop_ran : forall A (beh : behaviour A) terminate wait start l s s' ps c, mq_loop beh terminate wait start s l = Ok (s', ps, c) -> ran beh terminate wait start s l s' ps c.
Proof.
  intros A beh terminate wait start l. induction l as [|i l IH]; intros s s' ps c E; cbn [mq_loop] in E; [injection E as <- <- <-; constructor|].
  apply bind_ok in E as ([[[s1 sl] ps1] v] & E1 & E). destruct v.
  - apply bind_ok in E as ([[s2 ps2] c2] & E2 & E). injection E as <- <- <-. eapply ran_turn; [exact E1|exact (IH s1 s2 ps2 c2 E2)].
  - injection E as <- <- <-. eapply ran_done. exact E1.
  - injection E as <- <- <-. eapply ran_fails. exact E1.
Qed.
Lemma receive_fails : forall A (beh : behaviour A) l s s', mq_receive beh s l = Ok (s', false) -> exists e, In (e, Failure) l.
Proof.
  intros A beh l. induction l as [|[e [b from|]] l IH]; intros s s' E; cbn [mq_receive] in E; [discriminate E| |exists e; left; reflexivity].
  assert (G : forall s s', mq_receive beh s l = Ok (s', false) -> exists e0, In (e0, Failure) ((e, Datagram b from) :: l)) by (intros s1 s2 Q; destruct (IH s1 s2 Q) as (e0 & I); exists e0; right; exact I).
  destruct (zlen b =? 0); [discriminate E|]. cbv zeta in E. destruct (message_parse _ _) as [[[m c] n]| | |]; try discriminate E; [|exact (G _ _ E)].
  apply bind_ok in E as ([[d a] x] & _ & E). exact (G _ _ E).
Qed.
Lemma send_fails : forall A (beh : behaviour A) l d a d' a' ps, mq_send beh d a l = Ok (d', a', ps, false) -> exists e, In (e, false) l.
Proof.
  intros A beh l. induction l as [|[e sent] l IH]; intros d a d' a' ps E; cbn [mq_send] in E; [discriminate E|]. apply bind_ok in E as ([[[d1 a1] m] n] & _ & E).
  destruct (n =? 0); [discriminate E|]. destruct (e_ovf _); [discriminate E|]. destruct sent; [|exists e; left; reflexivity].
  apply bind_ok in E as ([[[d2 a2] ps2] k] & E2 & E). injection E as <- <- <- ->. destruct (IH _ _ _ _ _ E2) as (e0 & I). exists e0. right. exact I.
Qed.
Lemma turn_ends : forall A (beh : behaviour A) terminate wait start s i s' sl ps v, Mquery.turn beh terminate wait start s (i_env i) (i_ready i) (i_recv i) (i_send i) (i_end i) = Ok (s', sl, ps, v) ->
  match v with Again => True | Done => over terminate wait start i | Fails => broken i end.
Proof.
  intros A beh terminate wait start s i s' sl ps v E. unfold Mquery.turn in E. apply bind_ok in E as ([d t] & _ & E). cbv zeta in E. apply bind_ok in E as ([s1 ok] & E1 & E). destruct ok; cbn [negb] in E.
  - apply bind_ok in E as ([[[d2 a2] ps2] ok] & E2 & E). injection E as <- <- <- <-. destruct ok; cbn [negb]; [|right; exact (send_fails _ _ _ _ _ _ _ _ E2)].
    cbn [l_last]. destruct (finished terminate wait start (l_last s1) (i_end i)) eqn:F; [|exact I]. unfold finished in F. unfold over. apply orb_true_iff in F as [F|F].
    + right. apply andb_true_iff in F as [F G]. apply andb_true_iff in F as [F F2]. split; [exact F|]. exists (l_last s1). lia.
    + left. lia.
  - injection E as <- <- <- <-. left. destruct (i_ready i); [|discriminate E1]. split; [reflexivity|exact (receive_fails _ _ _ _ _ E1)].
Qed.
Lemma loop_status : forall A (beh : behaviour A) terminate wait start l s s' ps c, mq_loop beh terminate wait start s l = Ok (s', ps, c) ->
  ran beh terminate wait start s l s' ps c /\
  match c with None => True | Some n => n = 0 /\ (exists i, In i l /\ over terminate wait start i) \/ n = 1 /\ exists i, In i l /\ broken i end.
Proof.
  intros A beh terminate wait start l s s' ps c E. pose proof (loop_ran _ _ _ _ _ _ _ _ _ _ E) as Rn. split; [exact Rn|]. clear E.
  induction Rn as [s|s i l s1 sl ps s2 ps2 c E Rn IH|s i l s1 sl ps E|s i l s1 sl ps E]; [exact I| | |].
  - destruct c as [n|]; [|exact I]. destruct IH as [(-> & j & J & P)|(-> & j & J & P)]; [left|right]; (split; [reflexivity|]); exists j; (split; [right; exact J|exact P]).
  - left. split; [reflexivity|]. exists i. split; [left; reflexivity|exact (turn_ends _ _ _ _ _ _ _ _ _ _ _ E)].
  - right. split; [reflexivity|]. exists i. split; [left; reflexivity|exact (turn_ends _ _ _ _ _ _ _ _ _ _ _ E)].
Qed.

(* ---- as stated in PropMqMain.v ---- *)
Lemma prepare_goes' : forall k os ops routes, honest k -> Forall mq_accepted os ->
  match mq_prepare k os ops routes with
  | (tr, Ends code) => code = 1 /\ opened tr = [] /\ (chosen os routes None /\ tr = [] \/ exists family, (In QSix os /\ family = AF_INET6 \/ ~ In QSix os /\ family = AF_INET) /\ refused tr family)
  | (tr, Starts p) => agrees os (p_conf p) /\ (In QSix os /\ p_family p = AF_INET6 \/ ~ In QSix os /\ p_family p = AF_INET) /\ opened tr = [p_fd p] /\
      (exists name, chosen os routes (Some name) /\ prepared tr (p_fd p) (p_family p) name 1) /\
      (browses os /\ p_name p = DISCO_NAME /\ p_type p = QTYPE_PTR \/ ~ browses os /\ p_name p = hd DISCO_NAME ops /\ p_type p = m_type (p_conf p))
  end.
Proof.
  intros k os ops routes H F. pose proof (prepare_goes k os ops routes H F) as G. destruct (mq_prepare k os ops routes) as [tr [p|code]]; [exact G|].
  destruct G as (G1 & G2 & [G3|G3]); split; [exact G1| |exact G1|]; split; [exact G2| |exact G2|]; [left; exact G3|]. right. eexists. split; [|exact G3].
  destruct (existsb _ os) eqn:X.
  - left. apply existsb_exists in X as (x & I' & X). destruct x; try discriminate X. split; [exact I'|reflexivity].
  - right. split; [|reflexivity]. intros I'. enough (T : existsb (fun o => match o with QSix => true | _ => false end) os = true) by congruence. apply existsb_exists. exists QSix. split; [exact I'|reflexivity].
Qed.
Lemma first_asked : forall A (beh : behaviour A) t p (a : A) buf s terminate wait began e li e1 sent lo tend s' sl ps v tld l,
  mq_begin t p a buf = Ok s -> 0 < fst t <= fst (e_now e1) -> Mquery.turn beh terminate wait began s e false li ((e1, sent) :: lo) tend = Ok (s', sl, ps, v) ->
  p_name p = dotted l -> legal_name l -> ends_only_in tld l -> 0 <= p_type p < 65536 ->
  exists pk ps', ps = (mcast (p_family p), pk) :: ps' /\
    forall b, bytebuf b -> zlen pk <= b_size b -> (forall i, 0 <= i < zlen pk -> b_at b i = zget pk i) ->
      exists c n, message_parse b MSG_BLOCK = Ok (mkmessage 0 (mkheader 0 0 0 0 0 0 0 0) [mkquestion (p_name p) (p_type p) 1] [] [] [], c, n).
Proof.
  intros A beh t p a buf s terminate wait began e li e1 sent lo tend s' sl ps v tld l B T E N L Le Ty.
  destruct (first_packet A beh t p a buf s terminate wait began e li e1 sent lo tend s' sl ps v B T E) as (ps' & ->). eexists. exists ps'. split; [reflexivity|]. rewrite N. intros b Hb Hs Hat. exact (question_read tld l (p_type p) (p_family p) b L Le Ty Hb Hs Hat).
Qed.
