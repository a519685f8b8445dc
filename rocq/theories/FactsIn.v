(* Supporting proofs for PropIn.v. *)
From Verif Require Import Base Lemmas Hash HashProofs Wire Rec Qry Out In Api RecInv RecSafe RecOps RecAddr OutSafe QryInv QryOps CacheOps QryReg QryLoop OutPub OutProbe OutExtra OutAll OutSpec InSafe InLoop InResp Shut DaemonInv SpecDaemon FactsCalls FactsItems.

(* ------------------------------------------------------------------ *)
(* Words of the specification *)

Lemma nolink_unchanged : forall X Y, nolink X = nolink Y <-> unchanged X Y.
Proof.
  intros X Y. split; [intros K; apply nolink_fields; exact K|]. destruct X as [x1 x2 x3 x4 x5 x6 x7], Y as [y1 y2 y3 y4 y5 y6 y7]. unfold unchanged. cbn [rr unique modified tries conflict last_sent]. intros (K1 & K2 & K3 & K4 & K5 & K6). subst. reflexivity.
Qed.

Lemma own_addr_iff : forall d from, own_addr d from = true <-> own d from.
Proof. intros d from. unfold own_addr, own. apply bytes_eqb_eq. Qed.
Lemma listed_iff : forall l from, listed (Some l) from = true <-> of_interface l from.
Proof.
  intros l from. unfold listed, of_interface. rewrite existsb_exists. split; intros (i & I & A); exists i; (split; [exact I|]).
  - apply andb_true_iff in A as [A B]. apply bytes_eqb_eq in B. apply Z.eqb_eq in A. auto.
  - destruct A as [A B]. rewrite A, B, Z.eqb_refl, bytes_eqb_refl. reflexivity.
Qed.
Lemma foreign_ok : forall d e from i, foreign d e from -> (i = ifs d \/ i = view d e) -> own_addr d from || listed i from = false.
Proof.
  intros d e from i [F1 F2] I. apply orb_false_iff. split.
  - destruct (own_addr d from) eqn:E; [|reflexivity]. apply own_addr_iff in E. contradiction.
  - destruct i as [l|]; [|reflexivity]. destruct (listed (Some l) from) eqn:E; [|reflexivity]. apply listed_iff in E. exfalso. apply (F2 l); [|exact E].
    unfold view in I. destruct (e_ifs e); destruct I as [I|I]; auto.
Qed.
Lemma foreign_me : forall d e from, foreign d e from -> is_me d e from = false.
Proof. intros d e from F. apply (foreign_ok d e from); auto. Qed.

Lemma name_type_iff : forall t, is_name_type t = false -> is_name_type t = true -> False.
Proof. intros t A B. congruence. Qed.
Lemma a_match_iff : forall a x, wf_resource a -> (a_match a x = true <-> same_rr a x).
Proof.
  intros a x (_ & W0 & W1 & W2 & W3 & W4). unfold a_match, same_rr. destruct (bytes_eqb (rr_name a) (a_name x)) eqn:En; cbn [negb orb].
  2:{ split; [discriminate|]. intros (K & _). apply bytes_eqb_eq in K. congruence. }
  apply bytes_eqb_eq in En. destruct (rr_type a =? a_type x) eqn:Et; cbn [negb]; [|split; [discriminate|intros (_ & K & _); lia]]. apply Z.eqb_eq in Et.
  transitivity (same_data a x); [|tauto]. unfold same_data, is_name_type in *. destruct (rr_type a =? QTYPE_SRV) eqn:C1.
  - destruct (W1 ltac:(lia)) as (p & w & q & n & E). unfold known_srv, known_name. rewrite E, !andb_true_iff, opt_eqb_some, !Z.eqb_eq.
    apply Z.eqb_eq in C1. rewrite C1. split.
    + intros [[[K1 K2] K3] K4]. split; [intros _; exists n; subst; auto|]. split; [discriminate|]. split; [discriminate|]. split; [discriminate|]. congruence.
    + intros (K & _). destruct (K eq_refl) as (m & K1 & K2). injection K1 as -> -> -> ->. auto.
  - destruct ((rr_type a =? QTYPE_PTR) || (rr_type a =? QTYPE_NS) || (rr_type a =? QTYPE_CNAME)) eqn:C2.
    + destruct (W2 eq_refl) as (n & E). unfold known_name. rewrite E, opt_eqb_some.
      assert (NA : rr_type a <> QTYPE_A /\ rr_type a <> QTYPE_AAAA).
      { rewrite !orb_true_iff, !Z.eqb_eq in C2. destruct C2 as [[->| ->]| ->]; split; discriminate. }
      destruct NA as [NA1 NA2]. split.
      * intros K. split; [lia|]. split; [intros _; eauto|]. split; [contradiction|]. split; [contradiction|]. discriminate.
      * intros (_ & K & _). destruct (K eq_refl) as (m & K1 & K2). injection K1 as ->. exact K2.
    + destruct (rr_type a =? QTYPE_A) eqn:C3.
      * destruct (W3 ltac:(lia)) as (i & E). unfold known_ip. rewrite E, bytes_eqb_eq. apply Z.eqb_eq in C3. rewrite C3. split.
        -- intros ->. split; [discriminate|]. split; [discriminate|]. split; [reflexivity|]. split; [discriminate|]. congruence.
        -- intros (_ & _ & K & _). specialize (K eq_refl). injection K as ->. reflexivity.
      * destruct (rr_type a =? QTYPE_AAAA) eqn:C4.
        -- destruct (W4 ltac:(lia)) as (i & E). unfold known_ip6. rewrite E, bytes_eqb_eq. apply Z.eqb_eq in C4. rewrite C4. split.
           ++ intros ->. split; [discriminate|]. split; [discriminate|]. split; [discriminate|]. split; [reflexivity|]. congruence.
           ++ intros (_ & _ & _ & K & _). specialize (K eq_refl). injection K as ->. reflexivity.
        -- rewrite andb_true_iff, Z.eqb_eq, bytes_eqb_eq. split.
           ++ intros [_ K]. split; [lia|]. split; [discriminate|]. split; [lia|]. split; [lia|]. auto.
           ++ intros (_ & _ & _ & _ & K). assert (K' : opt_bytes (rr_rdata a) = opt_bytes (a_rdata x)) by (apply K; [lia|reflexivity|lia|lia]). split; [rewrite <- K'; exact W0|exact K'].
Qed.

Lemma wants_iff : forall d q r X, wants d q r X <-> targets d q r X.
Proof. intros d q r X. unfold wants, targets, record. rewrite match_rec_iff. tauto. Qed.

(* ------------------------------------------------------------------ *)
(* C25 *)

Lemma is_local_own : forall d e from, (own d from \/ exists l, snapshot d e = Some l /\ of_interface l from) ->
  exists i tm, is_local (with_now d (e_now e)) e from = (into (with_now d (e_now e)) (R d) i tm (received d), true).
Proof.
  intros d e from K. set (d0 := with_now d (e_now e)). assert (S : ifs (refresh d0 e false) = snapshot d e).
  { unfold refresh, snapshot. cbn [negb]. rewrite andb_true_r. change (ifs_time d0) with (ifs_time d). change (fst (now d0)) with (fst (e_now e)).
    destruct (negb (ifs_time d =? 0) && (fst (e_now e) - ifs_time d <? 5)); [reflexivity|]. destruct (e_ifs e); reflexivity. }
  destruct (refresh_into d0 e false) as (i & tm & E & _). assert (L : own_addr d0 from || listed (ifs (refresh d0 e false)) from = true).
  { apply orb_true_iff. destruct K as [K|(l & K1 & K2)]; [left; apply own_addr_iff; exact K|right; rewrite S, K1; apply listed_iff; exact K2]. }
  unfold is_local. unfold own_addr, listed in L. rewrite E in *. cbn [into ifs] in L. destruct (family from =? AF_INET6); destruct (bytes_eqb (ip from) _) eqn:B; cbn [orb] in L.
  1,3: exists (ifs d), (ifs_time d); f_equal; destruct d; reflexivity.
  all: exists i, tm; f_equal; exact L.
Qed.

Lemma own_ignored : forall d e m from, (own d from \/ exists l, snapshot d e = Some l /\ of_interface l from) ->
  exists d' n, step d e (OIn m from) = Ok (d', RInt n) /\ R d' = R d /\ Q d' = Q d /\ disco d' = disco d /\ received d' = received d.
Proof.
  intros d e m from K. cbn [step]. unfold mdnsd_in. destruct (is_shutdown d); [exists d, 1; auto|]. cbv zeta. destruct (is_local_own d e from K) as (i & tm & ->). cbn [bind].
  eexists. exists 0. split; [reflexivity|]. auto.
Qed.

(* ------------------------------------------------------------------ *)
(* C26 *)

Lemma out_shutdown : forall d e d' m n, mdnsd_out d e = Ok (d', m, n) -> is_shutdown d' = is_shutdown d.
Proof.
  intros d e d' m n E. unfold mdnsd_out in E. cbv zeta in E. destruct (uans _) as [|u us].
  - apply bind_ok in E as ([[[s1 m1] seen1] r1] & _ & E). apply bind_ok in E as ([[[s2 m2] seen2] r2] & _ & E). destruct (is_shutdown (with_now d (e_now e))); [injection E as <- _ _; reflexivity|].
    apply bind_ok in E as ([[[s3 m3] seen3] r3] & _ & E). apply bind_ok in E as ([m4 seen4] & _ & E). destruct (negb _); [injection E as <- _ _; reflexivity|].
    apply bind_ok in E as ([[s5 m5] r5] & _ & E). destruct (negb _); [injection E as <- _ _; reflexivity|]. apply bind_ok in E as ([[q6 m6] r6] & _ & E). destruct (_ <? _).
    + apply bind_ok in E as (q7 & _ & E). injection E as <- _ _. reflexivity.
    + injection E as <- _ _. reflexivity.
  - apply bind_ok in E as ([s1 m1] & _ & E). injection E as <- _ _. reflexivity.
Qed.
Lemma sleep_shutdown : forall d e d' t, mdnsd_sleep d e = Ok (d', t) -> is_shutdown d' = is_shutdown d.
Proof.
  intros d e d' t E. unfold mdnsd_sleep in E. cbv zeta in E.
  destruct (uans (R d)); [destruct (a_now (R d))|]; try (injection E as <- _; reflexivity).
  destruct (a_pause _); [injection E as <- _; reflexivity|]. destruct (probing _); [injection E as <- _; reflexivity|]. destruct (a_publish _); [injection E as <- _; reflexivity|].
  destruct (negb _); [injection E as <- _; reflexivity|]. destruct (_ <? 0); [injection E as <- _; reflexivity|].
  apply bind_ok in E as ([s x] & _ & E). injection E as <- _. reflexivity.
Qed.
Lemma step_shutdown : forall d e o d' x, is_shutdown d = true -> step d e o = Ok (d', x) -> is_shutdown d' = true.
Proof.
  intros d e o d' x K E. destruct o; cbn [step] in E;
    try (apply on_recs_ok in E as (s & _ & -> & _); exact K); try (apply on_new_ok in E as (s & r & _ & -> & _); exact K); try (injection E as <- _; exact K).
  - destruct (bytes_eqb _ _); [injection E as <- _; exact K|]. apply bind_ok in E as (s & _ & E); injection E as <- _; exact K.
  - destruct (bytes_eqb _ _); [injection E as <- _; exact K|]. apply bind_ok in E as (s & _ & E); injection E as <- _; exact K.
  - apply bind_ok in E as (s & _ & E). injection E as <- _. reflexivity.
  - apply bind_ok in E as (s & _ & E). injection E as <- _. exact K.
  - unfold mdnsd_in in E. rewrite K in E. injection E as <- _. exact K.
  - apply bind_ok in E as ([[d2 m] n] & E1 & E). injection E as <- _. rewrite (out_shutdown _ _ _ _ _ E1). exact K.
  - apply bind_ok in E as ([d2 t] & E1 & E). injection E as <- _. rewrite (sleep_shutdown _ _ _ _ E1). exact K.
Qed.
Lemma closed_for_good : forall d0 e0 d1 x d e m from, step d0 e0 OShutdown = Ok (d1, x) -> later d1 d -> step d e (OIn m from) = Ok (d, RInt 1).
Proof.
  intros d0 e0 d1 x d e m from E L. assert (K : is_shutdown d = true).
  { induction L as [d1|d1 d2 d3 e1 o x1 L IH E1].
    - cbn [step] in E. apply bind_ok in E as (s & _ & E). injection E as <- _. reflexivity.
    - eapply step_shutdown; [apply IH; exact E|exact E1]. }
  cbn [step]. unfold mdnsd_in. rewrite K. reflexivity.
Qed.

(* ------------------------------------------------------------------ *)
(* Packets from other hosts *)

Lemma into_foreign : forall d e from i tm, foreign d e from -> (i = ifs d \/ i = view d e) -> is_me (into (with_now d (e_now e)) (R d) i tm (received d)) e from = false.
Proof.
  intros d e from i tm F I. change (R d) with (R (with_now d (e_now e))). rewrite is_me_into; [|exact I]. exact (foreign_me d e from F).
Qed.
Lemma in_enters : forall d e m from, is_shutdown d = false -> foreign d e from -> exists i tm, (i = ifs d \/ i = view d e) /\
  let d1 := into (with_now d (e_now e)) (R d) i tm (received d) in
  mdnsd_in d e m from = (d <- (if h_qr (m_header m) =? 0 then questions d1 e from false (m_id m) (m_qd m) (m_an m) else responses d1 e from false (m_an m));; Ok (d, 0)).
Proof.
  intros d e m from Sd F. unfold mdnsd_in. rewrite Sd. cbv zeta. destruct (is_local_spec (with_now d (e_now e)) e from) as (i & tm & E & I). exists i, tm. split; [exact I|].
  rewrite E. change (own_addr (with_now d (e_now e)) from) with (own_addr d from). rewrite (foreign_ok d e from i F I). reflexivity.
Qed.

(* C27 *)
Lemma queries_frame : forall d e m from d' x, reach d -> h_qr (m_header m) = 0 -> step d e (OIn m from) = Ok (d', x) ->
  Q d' = Q d /\
  (forall r X', record d' r X' -> exists X, record d r X /\ unchanged X' X) /\
  (forall r X, record d r X -> (exists X', record d' r X') \/ in_probing X) /\
  (forall k r, waits d' k r -> waits d k r \/ (k = Now \/ k = Pause) /\ exists q X, In q (m_qd m) /\ wants d q r X).
Proof.
  intros d e m from d' x K Qr E. destruct (reach_dinv d K) as (qs & H & _). cbn [step] in E. apply bind_ok in E as ([d2 n] & E & E'). injection E' as <- _.
  assert (Same : R d2 = R d -> Q d2 = Q d -> Q d2 = Q d /\ (forall r X', record d2 r X' -> exists X, record d r X /\ unchanged X' X) /\
    (forall r X, record d r X -> (exists X', record d2 r X') \/ in_probing X) /\
    (forall k r, waits d2 k r -> waits d k r \/ (k = Now \/ k = Pause) /\ exists q X, In q (m_qd m) /\ wants d q r X)).
  { intros E1 E2. split; [exact E2|]. unfold record, waits, queue_is, next_of. rewrite E1. split; [|split].
    - intros r X' Er. exists X'. split; [exact Er|]. apply nolink_unchanged. reflexivity.
    - intros r X Er. left. exists X. exact Er.
    - intros k r W. left. exact W. }
  unfold mdnsd_in in E. destruct (is_shutdown d); [injection E as <- _; apply Same; reflexivity|]. cbv zeta in E.
  destruct (is_local_spec (with_now d (e_now e)) e from) as (i & tm & El & I). rewrite El in E. destruct (own_addr _ _ || listed i from); [injection E as <- _; apply Same; reflexivity|].
  rewrite Qr in E. cbn [Z.eqb] in E. apply bind_ok in E as (d3 & E & E'). injection E' as <- _.
  match type of E with questions ?D _ _ _ _ _ _ = _ => set (d1 := D) in * end. change (R (with_now d (e_now e))) with (R d) in d1.
  destruct (questions_sound (m_qd m) d1 e from false (m_id m) (m_an m) qs H ltac:(discriminate)) as (s' & i' & tm' & L' & b & qs' & C & E' & H' & _ & _ & A1 & A2 & _).
  rewrite E in E'. injection E' as ->. change (hp (R d1)) with (hp (R d)) in A1. split; [reflexivity|]. split; [|split].
  - intros r X' Er. unfold record in *. cbn [answered R] in Er. destruct (A1 r) as [A|[A _]]; [|congruence]. rewrite Er in A. destruct (hp (R d) r) as [X|]; [|discriminate]. exists X.
    split; [reflexivity|]. apply nolink_unchanged. exact (f_equal (fun o => match o with Some y => y | None => nolink X' end) A).
  - intros r X Er. unfold record in *. cbn [answered R]. destruct (A1 r) as [A|[A (Y & q & Iq & T & _ & Yi)]].
    + rewrite Er in A. left. destruct (hp s' r) as [X'|]; [eauto|discriminate].
    + right. destruct T as (_ & T & _). change (hp (R d1)) with (hp (R d)) in T. replace Y with X in * by congruence. unfold yields, watching, probes in Yi. unfold in_probing.
      destruct (unique X =? 0) eqn:U0, (unique X <? 5) eqn:U5; try discriminate. pose proof (ur_range _ _ _ (ri_u _ _ H r X Er)). lia.
  - intros k r W. apply (waits_iff (answered d1 s' i' tm' (received d1 ++ L') b) qs' k r H') in W. apply A2 in W as [W|(q & X & Iq & T & _ & Sq)].
    + left. apply (waits_iff d qs k r H). exact W.
    + right. split; [unfold send_queue in Sq; destruct (_ <? _); [discriminate|]; destruct (_ =? _); injection Sq as <-; auto|]. exists q, X. split; [exact Iq|]. apply wants_iff. exact T.
Qed.

(* C28 *)
Lemma known_iff : forall q an X, Forall wf_resource an -> (known q an X = true <-> exists a, In a an /\ rr_name a = q_name q /\ rr_type a = q_type q /\ same_rr a (rr X)).
Proof.
  intros q an X W. unfold known. rewrite existsb_exists. split; intros (a & I & A); exists a; (split; [exact I|]); pose proof (proj1 (Forall_forall _ _) W a I) as Wa.
  - apply andb_true_iff in A as [A B]. apply (a_match_iff a _ Wa) in B. unfold same_q in A. apply andb_true_iff in A as [A1 A2]. apply bytes_eqb_eq in A2. split; [congruence|]. split; [lia|exact B].
  - destruct A as (A1 & A2 & A3). apply (a_match_iff a _ Wa) in A3. rewrite A3. unfold same_q. rewrite A1, A2, Z.eqb_refl, bytes_eqb_refl. reflexivity.
Qed.

Lemma known_answers_suppress : forall d e m from q r X, reach d -> legal d e (OIn m from) -> is_shutdown d = false -> foreign d e from -> h_qr (m_header m) = 0 -> m_qd m = [q] ->
  wants d q r X -> q_name q <> DISCO_NAME -> unique X = 0 \/ unique X = 5 -> 4 <= tries X -> idle d r ->
  exists d' n, step d e (OIn m from) = Ok (d', RInt n) /\
    ((exists a, In a (m_an m) /\ rr_name a = q_name q /\ rr_type a = q_type q /\ same_rr a (rr X)) /\ idle d' r \/
     (~ exists a, In a (m_an m) /\ rr_name a = q_name q /\ rr_type a = q_type q /\ same_rr a (rr X)) /\ waits d' (if unique X =? 0 then Pause else Now) r).
Proof.
  intros d e m from q r X K [N W] Sd F Qr Eq Wn Nd U T Id. destruct (reach_dinv d K) as (qs & H & _). destruct (in_enters d e m from Sd F) as (i & tm & I & E). cbv zeta in E. rewrite Qr, Eq in E.
  cbn [Z.eqb] in E. set (d1 := into (with_now d (e_now e)) (R d) i tm (received d)) in *.
  destruct (question_spec d1 e from false (m_id m) q [] (m_an m) qs H ltac:(discriminate)) as (s' & i' & tm' & L & did' & E1 & _ & _ & H' & _).
  rewrite E1 in E. cbn [questions bind] in E. eexists. eexists. split; [cbn [step]; rewrite E; reflexivity|]. match goal with |- context [idle ?D r] => set (d2 := D) end.
  rewrite (idle_iff d qs r H) in Id. pose proof Wn as Tg. apply wants_iff in Tg. pose proof Tg as (Tc & Tr & Tm). change (hp (R d)) with (hp (R d1)) in Tr.
  assert (In_q : forall k, In r (fold_left (qmove (is_me d1 e from) q (m_an m) (hp (R d1))) (asked d1 q) qs k) <-> lands (goes (is_me d1 e from) q (m_an m) (hp (R d1)) (asked d1 q) r) k (In r (qs k))).
  { intros k. apply qmoves_in; [apply asked_nodup; apply H|]. intros k'. apply (qk_nodup _ _ (ri_q _ _ H)). }
  assert (G : goes (is_me d1 e from) q (m_an m) (hp (R d1)) (asked d1 q) r = if known q (m_an m) X then None else Some (Some (if unique X =? 0 then Pause else Now))).
  { unfold goes. replace (mem r (asked d1 q)) with true.
    2:{ symmetry. apply mem_iff. apply asked_in; [apply H|]. split; [exact Tc|eauto]. }
    rewrite Tr. unfold where_to. replace (is_disco q) with false by (symmetry; apply bytes_eqb_neq; exact Nd).
    assert (Wt : watching X = false) by (unfold watching, probes; destruct U as [-> | ->]; reflexivity).
    unfold yields, replies. rewrite Wt. cbn [andb negb]. destruct (known q (m_an m) X); [reflexivity|]. cbn [negb]. unfold send_queue. replace (tries X <? 4) with false by lia. destruct (unique X =? 0); reflexivity. }
  rewrite G in In_q. destruct (known q (m_an m) X) eqn:Kn.
  - left. split; [apply known_iff; assumption|]. apply (idle_iff d2 _ r H'). intros k J. apply In_q in J. exact (Id k J).
  - right. split; [intros A; apply known_iff in A; [congruence|exact W]|]. apply (waits_iff d2 _ _ r H'). apply In_q. reflexivity.
Qed.

(* ------------------------------------------------------------------ *)
(* C31 *)

Lemma cands_first : forall d n ty, pok (R d) ->
  match hd_error (cands (hp (R d)) n ty (chain_of (R d) n)) with
  | Some r => exists X, first_match d n ty r X
  | None => forall r X, ~ first_match d n ty r X
  end.
Proof.
  intros d n ty H. unfold first_match, mdnsd_get_published, record. pose proof (chain_of_live (R d) n H) as L. revert L. unfold cands.
  generalize (chain_of (R d) n). induction l as [|x l IH]; intros L.
  - cbn [filter hd_error]. intros r X (pre & post & E & _). destruct pre; discriminate.
  - apply all_live_cons in L as [(X & E) L]. cbn [filter]. rewrite (holds_at _ _ _ _ E). destruct (match_rec n ty (rr X)) eqn:M; cbn [hd_error].
    + exists X, [], l. split; [reflexivity|]. split; [exact E|]. split; [apply match_rec_iff; exact M|]. intros p P [].
    + specialize (IH L). destruct (hd_error _) as [r|].
      * destruct IH as (Y & pre & post & E1 & E2 & E3 & E4). exists Y, (x :: pre), post. split; [rewrite E1; reflexivity|]. split; [exact E2|]. split; [exact E3|].
        intros p P [<-|I] EP; [|apply (E4 p); assumption]. replace P with X by congruence. intros K. apply match_rec_iff in K. congruence.
      * intros r Y (pre & post & E1 & E2 & E3 & E4). destruct pre as [|p pre].
        -- injection E1 as -> ->. replace Y with X in * by congruence. apply match_rec_iff in E3. congruence.
        -- injection E1 as -> ->. apply (IH r Y). exists pre, post. split; [reflexivity|]. split; [exact E2|]. split; [exact E3|]. intros p' P I. apply E4. right. exact I.
Qed.
Lemma first_match_unique : forall d n ty r r' X X', first_match d n ty r X -> first_match d n ty r' X' -> r = r' /\ X = X'.
Proof.
  intros d n ty r r' X X' (pre & post & E1 & E2 & E3 & E4) (pre' & post' & E1' & E2' & E3' & E4'). assert (r = r') as <-; [|split; [reflexivity|unfold record in *; congruence]].
  rewrite E1 in E1'. clear E1. revert pre' E1' E4'. induction pre as [|p pre IH]; intros [|p' pre'] E E4'.
  - injection E as -> _. reflexivity.
  - injection E as -> _. exfalso. apply (E4' p' X); [left; reflexivity|exact E2|exact E3].
  - injection E as -> _. exfalso. apply (E4 r' X'); [left; reflexivity|exact E2'|exact E3'].
  - injection E as -> E. apply (IH (fun q P I => E4 q P (or_intror I)) pre' E). intros q P I. apply E4'. right. exact I.
Qed.

Lemma contested_iff : forall d a r X, pok (R d) -> wf_resource a ->
  (contested d a = Some (r, X) <-> first_match d (rr_name a) (rr_type a) r X /\ unique X <> 0 /\ modified X = true /\ same_rr a (rr X)).
Proof.
  intros d a r X H W. unfold contested. pose proof (cands_first d (rr_name a) (rr_type a) H) as C. destruct (hd_error _) as [r0|].
  - destruct C as (X0 & C). pose proof C as (pre & post & _ & E & _). unfold record in E. rewrite E. unfold disputes. pose proof (a_match_iff a (rr X0) W) as A.
    destruct (negb (unique X0 =? 0) && modified X0 && a_match a (rr X0)) eqn:D; split; intros K.
    + injection K as <- <-. rewrite !andb_true_iff in D. destruct D as [[D1 D2] D3]. split; [exact C|]. split; [lia|]. split; [exact D2|]. apply A. exact D3.
    + destruct K as (K & _). destruct (first_match_unique _ _ _ _ _ _ _ C K) as [-> ->]. reflexivity.
    + discriminate.
    + exfalso. destruct K as (K & K1 & K2 & K3). destruct (first_match_unique _ _ _ _ _ _ _ C K) as [<- <-]. apply A in K3. rewrite K2, K3 in D. destruct (unique X0 =? 0) eqn:U; [lia|discriminate].
  - split; [discriminate|]. intros (K & _). exfalso. exact (C r X K).
Qed.

Lemma response_conflict : forall d e m from a, reach d -> legal d e (OIn m from) -> is_shutdown d = false -> foreign d e from -> h_qr (m_header m) <> 0 -> m_an m = [a] ->
  exists d' n, step d e (OIn m from) = Ok (d', RInt n) /\
   ((exists r X cb, first_match d (rr_name a) (rr_type a) r X /\ unique X <> 0 /\ modified X = true /\ same_rr a (rr X) /\ conflict X = Some cb /\
       conflicts (R d') = conflicts (R d) ++ [(cb, a_name (rr X), a_type (rr X))]) \/
    (~ exists r X, first_match d (rr_name a) (rr_type a) r X /\ unique X <> 0 /\ modified X = true /\ same_rr a (rr X)) /\ conflicts (R d') = conflicts (R d)).
Proof.
  intros d e m from a K [N W] Sd F Qr Ea. destruct (reach_dinv d K) as (qs & H & C1 & C2 & C3 & C4). destruct (in_enters d e m from Sd F) as (i & tm & I & E). cbv zeta in E. rewrite Ea in E.
  replace (h_qr (m_header m) =? 0) with false in E by lia. set (d1 := into (with_now d (e_now e)) (R d) i tm (received d)) in *. unfold wf_message in W. rewrite Ea in W. apply Forall_cons_iff in W as [Wa _].
  destruct (response_spec d1 e from false a [] qs H C1 N Wa ltac:(discriminate)) as (s' & q' & i' & tm' & L & did' & qs' & T & E1 & _ & _ & H' & _ & _ & G & _). rewrite E1 in E. cbn [responses bind] in E.
  eexists. eexists. split; [cbn [step]; rewrite E; reflexivity|]. cbn [heard R]. unfold d1 in G at 2. rewrite (into_foreign d e from i tm F I) in G.
  assert (Ct : forall r X, contested d1 a = Some (r, X) <-> first_match d (rr_name a) (rr_type a) r X /\ unique X <> 0 /\ modified X = true /\ same_rr a (rr X)).
  { intros r X. exact (contested_iff d a r X (ri_p _ _ H) Wa). }
  destruct (contested d1 a) as [[r X]|] eqn:Ec.
  - left. destruct (proj1 (Ct r X) eq_refl) as (A1 & A2 & A3 & A4). destruct G as [(G1 & _ & _ & _ & G2) _]. change (hp (R d1)) with (hp (R d)) in G1.
    pose proof (ur_conflict _ _ _ (ri_u _ _ H r X G1) A2) as Uc. unfold report in G2. destruct (conflict X) as [cb|] eqn:Ecb; [|congruence]. exists r, X, cb. auto 10.
  - right. destruct G as [-> _]. split; [|reflexivity]. intros (r & X & A). apply Ct in A. discriminate.
Qed.

(* Any packet *)
Lemma conflicts_sound : forall d e m from d' x, reach d -> legal d e (OIn m from) -> step d e (OIn m from) = Ok (d', x) ->
  exists C, conflicts (R d') = conflicts (R d) ++ C /\ forall cb n ty, In (cb, n, ty) C ->
    exists r X, record d r X /\ unique X <> 0 /\ conflict X = Some cb /\ a_name (rr X) = n /\ a_type (rr X) = ty /\ ~ own d from /\
      (h_qr (m_header m) = 0 /\ in_probing X /\ modified X = false /\
         (exists q a, In q (m_qd m) /\ wants d q r X /\ In a (m_an m) /\ rr_name a = q_name q /\ rr_type a = q_type q /\ ~ same_rr a (rr X)) \/
       h_qr (m_header m) <> 0 /\ modified X = true /\ exists a, In a (m_an m) /\ same_rr a (rr X)).
Proof.
  intros d e m from d' x K [N W] E. destruct (reach_dinv d K) as (qs & H & C1 & C2 & C3 & C4). cbn [step] in E. apply bind_ok in E as ([d2 n] & E & E'). injection E' as <- _.
  assert (Nop : R d2 = R d -> exists C, conflicts (R d2) = conflicts (R d) ++ C /\ forall cb n ty, In (cb, n, ty) C -> exists r X, record d r X /\ unique X <> 0 /\ conflict X = Some cb /\ a_name (rr X) = n /\ a_type (rr X) = ty /\ ~ own d from /\
      (h_qr (m_header m) = 0 /\ in_probing X /\ modified X = false /\
         (exists q a, In q (m_qd m) /\ wants d q r X /\ In a (m_an m) /\ rr_name a = q_name q /\ rr_type a = q_type q /\ ~ same_rr a (rr X)) \/
       h_qr (m_header m) <> 0 /\ modified X = true /\ exists a, In a (m_an m) /\ same_rr a (rr X))).
  { intros ->. exists []. rewrite app_nil_r. split; [reflexivity|intros cb n0 ty []]. }
  unfold mdnsd_in in E. destruct (is_shutdown d); [injection E as <- _; apply Nop; reflexivity|]. cbv zeta in E.
  destruct (is_local_spec (with_now d (e_now e)) e from) as (i & tm & El & I). rewrite El in E. destruct (own_addr _ _ || listed i from) eqn:Ow; [injection E as <- _; apply Nop; reflexivity|].
  apply orb_false_iff in Ow as [Ow _]. assert (No : ~ own d from) by (intros A; apply own_addr_iff in A; change (own_addr (with_now d (e_now e)) from) with (own_addr d from) in Ow; congruence).
  change (R (with_now d (e_now e))) with (R d) in E. change (received (with_now d (e_now e))) with (received d) in E. set (d1 := into (with_now d (e_now e)) (R d) i tm (received d)) in *.
  destruct (h_qr (m_header m) =? 0) eqn:Qr; apply bind_ok in E as (d3 & E & E'); injection E' as <- _.
  - destruct (questions_sound (m_qd m) d1 e from false (m_id m) (m_an m) qs H ltac:(discriminate)) as (s' & i' & tm' & L' & b & qs' & C & E' & H' & _ & _ & _ & _ & _ & _ & _ & A1 & A2 & _).
    rewrite E in E'. injection E' as ->. exists C. split; [exact A1|]. intros cb n0 ty Ic. destruct (A2 _ Ic) as (r & X & (q & Iq & T & _ & Y) & _ & Rp). exists r, X. pose proof T as (_ & Er & _).
    change (hp (R d1)) with (hp (R d)) in Er. split; [exact Er|]. unfold yields, watching, probes in Y. rewrite !andb_true_iff in Y. destruct Y as [[[[Y1 Y2] Y3] Y4] _].
    pose proof (ur_range _ _ _ (ri_u _ _ H r X Er)) as Ur. split; [lia|]. unfold report in Rp. destruct (conflict X) as [c|]; [|destruct Rp]. destruct Rp as [Rp|[]]. injection Rp as -> <- <-.
    split; [reflexivity|]. split; [reflexivity|]. split; [reflexivity|]. split; [exact No|]. left. split; [lia|]. split; [unfold in_probing; lia|]. split; [destruct (modified X); [discriminate|reflexivity]|].
    unfold clash in Y4. apply existsb_exists in Y4 as (a & Ia & Ya). apply andb_true_iff in Ya as [Ya Yb]. exists q, a. split; [exact Iq|]. split; [apply wants_iff; exact T|]. split; [exact Ia|].
    unfold same_q in Ya. apply andb_true_iff in Ya as [Ya1 Ya2]. apply bytes_eqb_eq in Ya2. split; [congruence|]. split; [lia|]. intros Sm. apply (a_match_iff a _ (proj1 (Forall_forall _ _) W a Ia)) in Sm. rewrite Sm in Yb. discriminate.
  - destruct (responses_sound (m_an m) d1 e from false qs H C1 N W ltac:(discriminate)) as (s' & q' & i' & tm' & L' & qs' & T & C & E' & _ & _ & _ & _ & _ & _ & _ & _ & A1 & A2 & _).
    rewrite E in E'. injection E' as ->. exists C. split; [exact A1|]. intros cb n0 ty Ic. destruct (A2 _ Ic) as (_ & r & X & Er & (a & Ia & D) & Rp). exists r, X. split; [exact Er|].
    unfold disputes in D. rewrite !andb_true_iff in D. destruct D as [[D1 D2] D3]. split; [lia|]. unfold report in Rp. destruct (conflict X) as [c|]; [|destruct Rp]. destruct Rp as [Rp|[]]. injection Rp as -> <- <-.
    split; [reflexivity|]. split; [reflexivity|]. split; [reflexivity|]. split; [exact No|]. right. split; [lia|]. split; [exact D2|]. exists a. split; [exact Ia|].
    apply (a_match_iff a _ (proj1 (Forall_forall _ _) W a Ia)). exact D3.
Qed.

(* ------------------------------------------------------------------ *)
(* C39 *)

Lemma nil_app_eq : forall (A : Type) (l m : list A), l ++ m = l -> m = [].
Proof. intros A l m E. rewrite <- (app_nil_r l) in E at 2. apply app_inv_head in E. exact E. Qed.

Lemma no_conflict_quiet : forall qd d e from did id an qs d', rinv (R d) qs -> (did = true -> ifs d = view d e) ->
  questions d e from did id qd an = Ok d' -> conflicts (R d') = conflicts (R d) -> quiet d (is_me d e from) qd an.
Proof.
  induction qd as [|q qd IH]; intros d e from did id an qs d' H D E C; [intros q x X []|].
  destruct (question_spec d e from did id q qd an qs H D) as (s1 & i1 & tm1 & L1 & did1 & E1 & Ii & Di & H1 & A1 & F1 & U1 & C1 & Il1 & Nl1 & P1).
  set (me := is_me d e from) in *. set (dead := loses me q an (hp (R d)) (asked d q)) in *. rewrite E1 in E.
  match type of E with questions ?D _ _ _ _ _ _ = _ => set (d1 := D) in * end.
  assert (V1 : view d1 e = view d e).
  { unfold view, d1. destruct (e_ifs e) as [l|] eqn:Ee; [reflexivity|]. cbn [answered ifs]. destruct Ii as [->| ->]; [reflexivity|]. unfold view. rewrite Ee. reflexivity. }
  assert (M1 : is_me d1 e from = me) by (unfold me, is_me; rewrite V1; reflexivity).
  assert (D1 : did1 = true -> ifs d1 = view d1 e) by (intros K'; rewrite V1; apply Di; exact K').
  destruct (questions_sound qd d1 e from did1 id an _ H1 D1) as (s2 & i2 & tm2 & L2 & b2 & qs2 & C2 & E2 & _ & _ & _ & _ & _ & _ & _ & _ & G & _).
  rewrite E in E2. injection E2 as ->. cbn [answered R] in C. rewrite G in C. cbn [d1 answered R] in C. rewrite C1, <- app_assoc in C. apply nil_app_eq in C. apply app_eq_nil in C as [C3 C4].
  assert (Dd : forall x, ~ In x dead).
  { intros x I. pose proof I as J. apply loses_in in J; [|apply H]. destruct J as (X & (T1 & T2 & T3) & T4 & T5).
    assert (Rn : report X = []).
    { destruct (report X) as [|c l] eqn:Er; [reflexivity|]. exfalso. assert (In c (flat_map (at_rec (hp (R d)) report) dead)) as Ic by (apply in_flat_map; exists x; split; [exact I|]; unfold at_rec; rewrite T2, Er; left; reflexivity).
      rewrite C3 in Ic. destruct Ic. }
    unfold yields, watching, probes in T5. rewrite !andb_true_iff in T5. destruct T5 as [[[[T5 _] _] _] _]. pose proof (ur_conflict _ _ _ (ri_u _ _ H x X T2) ltac:(lia)) as Uc.
    unfold report in Rn. destruct (conflict X); [discriminate|congruence]. }
  assert (Qt : quiet d1 me qd an) by (rewrite <- M1; eapply (IH d1 e from did1 id an _ _ H1 D1 E); cbn [answered R]; rewrite G, C4, app_nil_r; reflexivity).
  intros q' x X [<-|Iq] T.
  - destruct (is_disco q) eqn:Ed; [left; reflexivity|right]. destruct (yields me q an X) eqn:Ey; [|reflexivity]. exfalso. apply (Dd x). apply loses_in; [apply H|]. exists X. auto.
  - destruct T as (T1 & T2 & T3). specialize (A1 x). rewrite T2 in A1. cbn [option_map] in A1.
    assert (exists X1, hp s1 x = Some X1 /\ nolink X1 = nolink X) as (X1 & EX1 & Nk).
    { unfold vanish, upon in A1. replace (mem x dead) with false in A1 by (symmetry; apply mem_false; apply Dd). cbn [bind option_map] in A1. destruct (hp s1 x) as [X1|]; [|discriminate].
      exists X1. split; [reflexivity|]. exact (f_equal (fun o => match o with Some y => y | None => nolink X end) A1). }
    rewrite <- (yields_nolink me q' an X1 X Nk). apply (Qt q' x X1 Iq). split; [exact T1|]. split; [exact EX1|]. pose proof (nolink_fields _ _ Nk) as (Nr & _). rewrite Nr. exact T3.
Qed.

Definition uni_for (d : daemon) (m : message) (from : addr) (q : question) (us : list unicast) : Prop :=
  match us with
  | [] => q_name q = DISCO_NAME \/ forall r X, ~ wants d q r X
  | [u] => q_name q <> DISCO_NAME /\ (exists X, wants d q (u_r u) X) /\ u_id u = m_id m /\ u_to u = from
  | _ => False
  end.

Lemma unicast_queued : forall d e m from d' x, reach d -> is_shutdown d = false -> foreign d e from -> h_qr (m_header m) = 0 -> port from <> 5353 ->
  step d e (OIn m from) = Ok (d', x) -> conflicts (R d') = conflicts (R d) ->
  exists l, uans (R d') = rev (concat l) ++ uans (R d) /\ Forall2 (uni_for d m from) (m_qd m) l.
Proof.
  intros d e m from d' x K Sd F Qr Pt E C. destruct (reach_dinv d K) as (qs & H & _). destruct (in_enters d e m from Sd F) as (i & tm & I & Ei). cbv zeta in Ei. rewrite Qr in Ei. cbn [Z.eqb] in Ei.
  cbn [step] in E. rewrite Ei in E. set (d1 := into (with_now d (e_now e)) (R d) i tm (received d)) in *. apply bind_ok in E as ([d2 n] & E & E'). injection E' as <- _. apply bind_ok in E as (d3 & E & E'). injection E' as <- _.
  assert (Qt : quiet d1 (is_me d1 e from) (m_qd m) (m_an m)) by (eapply (no_conflict_quiet (m_qd m) d1 e from false (m_id m) (m_an m) qs d3 H ltac:(discriminate) E); exact C).
  destruct (questions_quiet (m_qd m) d1 e from false (m_id m) (m_an m) qs H ltac:(discriminate) Qt) as (s' & i' & tm' & L & E' & H' & _ & _ & U & _). rewrite E in E'. injection E' as ->.
  cbn [answered R]. exists (map (fun q => unicasts from (m_id m) q (asked d1 q) []) (m_qd m)). split; [rewrite U, flat_map_concat_map; reflexivity|].
  clear -H Pt. generalize (m_qd m). induction l as [|q l IH]; cbn [map]; constructor; [|exact IH]. unfold unicasts. pose proof (fun x => asked_in d1 q x (ri_p _ _ H)) as A.
  destruct (asked d1 q) as [|r t] eqn:Ea; cbn [uni_for].
  - right. intros r X W. apply wants_iff in W. destruct W as (W1 & W2 & W3). assert (In r []) as []. apply A. split; [exact W1|eauto].
  - destruct (is_disco q) eqn:Ed; cbn [orb uni_for]; [left; apply bytes_eqb_eq; exact Ed|]. replace (port from =? 5353) with false by lia. cbn [uni_for u_r u_id u_to]. split; [apply bytes_eqb_neq; exact Ed|].
    split; [|auto]. destruct (proj1 (A r) (or_introl eq_refl)) as (W1 & X & W2 & W3). exists X. apply wants_iff. split; [exact W1|]. auto.
Qed.

Lemma unicast_sent : forall d e u us, reach d -> legal d e OOut -> uans (R d) = u :: us ->
  exists d' m X, step d e OOut = Ok (d', RMsg m 1) /\ record d (u_r u) X /\ o_to m = u_to u /\ o_id m = u_id u /\ o_qr m = true /\
    (exists more, items (o_calls m) = IQuestion (a_name (rr X)) (a_type (rr X)) (class d) :: shown SAn (class d) X :: more) /\ uans (R d') = us.
Proof.
  intros d e u us K [N L] Eu. destruct (reach_dinv d K) as (qs & H & C1 & C2 & C3 & C4).
  destruct (mdnsd_out_spec d e qs H C1 C2 C3 L) as (d2 & m & ret & qs' & E' & O & _). destruct O; try congruence.
  assert (u0 = u /\ us0 = us) as [-> ->] by (split; congruence). do 2 eexists. exists X. cbn [step]. rewrite E'. cbn [bind]. split; [reflexivity|]. split; [assumption|]. split; [reflexivity|]. split; [reflexivity|]. split; [reflexivity|]. split; [|reflexivity].
  cbn [o_calls]. rewrite items_unicast. eexists. reflexivity.
Qed.
