(* Supporting proofs for PropMquery.v: what callbacks register stays registered. *)
From Verif Require Import Base Lemmas Hash Wire Rec Qry Out In Api Reent SpecDaemon SpecCache SpecReent RecInv RecSafe QryInv QryReg QryLoop OutSpec DaemonInv InSafe InLoop InResp ReentFacts ReentSafe ReentRuns ReentAsk Step SpecStep Mquery SpecMquery FactsMq FactsMq2 FactsMq3.

Definition has (s : qrys) (n : list Z) (ty : Z) : Prop := exists q x, qh s q = Some x /\ q_nm x = n /\ q_ty x = ty.
Definition below (s : qrys) : Prop := forall q x, qh s q = Some x -> (q < qfresh s)%nat.

Lemma find_query_matches : forall s l h ty q, find_query s l h ty = Ok (Some q) -> has s h ty.
Proof.
  intros s l h ty q. induction l as [|x l IH]; cbn [find_query]; [discriminate|]. unfold qget. destruct (qh s x) as [y|] eqn:E; cbn [bind]; [|discriminate].
  destruct ((q_ty y =? ty) && bytes_eqb (q_nm y) h) eqn:C; [|exact IH]. intros _. apply andb_true_iff in C as [C1 C2]. apply bytes_eqb_eq in C2. exists x, y. split; [exact E|]. split; [exact C2|lia].
Qed.

(* Queries come, none goes *)
Record gains (s s' : qrys) : Prop := mkgains { ga_below : below s'; ga_has : forall n ty, has s n ty -> has s' n ty }.
Lemma gains_same : forall s s', below s -> qh s' = qh s -> qfresh s' = qfresh s -> gains s s'.
Proof. intros s s' B E F. split; [intros q x K; rewrite E in K; rewrite F; eapply B; exact K|]. intros n ty (q & x & K & M). exists q, x. rewrite E. auto. Qed.
Lemma gains_trans : forall s s1 s2, gains s s1 -> gains s1 s2 -> gains s s2.
Proof. intros s s1 s2 [A1 A2] [B1 B2]. split; auto. Qed.

Lemma gains_set : forall s q x y, below s -> qh s q = Some x -> q_nm y = q_nm x -> q_ty y = q_ty x -> gains s (qset s q y).
Proof.
  intros s q x y B E N T. split.
  - intros p z K. cbn [qset set_qh qh] in K. change (qfresh (qset s q y)) with (qfresh s). destruct (Nat.eqb_spec p q) as [->|D]; [eapply B; exact E|eapply B; exact K].
  - intros n ty (p & z & K & M1 & M2). cbn [qset set_qh qh]. unfold has. cbn [qset set_qh qh]. destruct (Nat.eqb_spec p q) as [->|D].
    + exists q, y. rewrite Nat.eqb_refl. rewrite E in K. injection K as <-. split; [reflexivity|]. split; congruence.
    + exists p, z. destruct (Nat.eqb_spec p q); [contradiction|]. auto.
Qed.
Lemma gains_reset : forall s q s', below s -> q_reset s q = Ok s' -> gains s s'.
Proof.
  intros s q s' B E. unfold q_reset, qget in E. destruct (qh s q) as [x|] eqn:Eq; cbn [bind] in E; [|discriminate]. cbv zeta in E.
  match type of E with context [qset s q ?y] => pose proof (gains_set s q x y B Eq eq_refl eq_refl) as G end.
  injection E as <-. destruct (_ && _); [|exact G]. eapply gains_trans; [exact G|]. apply gains_same; [apply G|reflexivity|reflexivity].
Qed.

Lemma gains_query : forall t s h ty cb s', below s -> mdnsd_query s t h ty (Some cb) = Ok s' -> gains s s' /\ has s' h ty.
Proof.
  intros t s h ty cb s' B E. unfold mdnsd_query in E. destruct (q_find s h ty) as [o| | |] eqn:Ef; cbn [bind] in E; try discriminate. destruct o as [q|].
  - apply find_query_matches in Ef as H. destruct (qget s q) as [x| | |] eqn:Eq; cbn [bind] in E; try discriminate. injection E as <-. unfold qget in Eq. destruct (qh s q) as [x'|] eqn:Eq'; [|discriminate]. injection Eq as ->.
    pose proof (gains_set s q x (set_qcb x cb) B Eq' eq_refl eq_refl) as G. split; [exact G|apply G; exact H].
  - cbv zeta in E. match type of E with context [q_reset ?z _] => set (s1 := z) in * end.
    assert (G1 : gains s s1).
    { split.
      - intros p y K. unfold s1 in K. cbn [qh] in K. change (qfresh s1) with (S (qfresh s)). destruct (Nat.eqb_spec p (qfresh s)) as [->|D]; [lia|]. apply B in K. lia.
      - intros n ty' (p & y & K & M). exists p, y. unfold s1. cbn [qh]. destruct (Nat.eqb_spec p (qfresh s)) as [->|D]; [apply B in K; lia|]. auto. }
    assert (H1 : has s1 h ty) by (exists (qfresh s); eexists; unfold s1; cbn [qh]; rewrite Nat.eqb_refl; split; [reflexivity|split; reflexivity]).
    destruct (q_reset s1 _) as [s2| | |] eqn:E2; cbn [bind] in E; try discriminate. pose proof (gains_reset s1 _ s2 (ga_below _ _ G1) E2) as G2.
    destruct (qget s2 _) as [x| | |] eqn:E3; cbn [bind] in E; try discriminate. injection E as <-. unfold qget in E3. destruct (qh s2 (qfresh s)) as [x'|] eqn:E3'; [|discriminate]. injection E3 as ->.
    match goal with |- context [qset s2 ?q ?y] => pose proof (gains_set s2 q x y (ga_below _ _ G2) E3' eq_refl eq_refl) as G3 end.
    match goal with |- gains s ?z /\ _ => assert (G4 : gains s1 z) end.
    { eapply gains_trans; [exact G2|]. eapply gains_trans; [exact G3|]. apply gains_same; [apply G3|reflexivity|reflexivity]. }
    split; [eapply gains_trans; [exact G1|exact G4]|apply G4; exact H1].
Qed.
Lemma gains_queries : forall t l s s', below s -> Forall registering l -> queries s t l = Ok s' -> gains s s' /\ forall n ty cb, In (n, ty, cb) l -> has s' n ty.
Proof.
  intros t l. induction l as [|[[h ty] a] l IH]; intros s s' B F E; cbn [queries] in E.
  - injection E as <-. split; [apply gains_same; auto|intros n ty cb []].
  - inversion F as [|? ? F1 F2]; subst. destruct F1 as (h' & t' & cb & K). injection K as <- <- ->. destruct (mdnsd_query s t h ty (Some cb)) as [s1| | |] eqn:E1; cbn [bind] in E; try discriminate.
    destruct (gains_query _ _ _ _ _ _ B E1) as [G1 H1]. destruct (IH _ _ (ga_below _ _ G1) F2 E) as [G2 H2]. split; [eapply gains_trans; eauto|].
    intros n ty' cb' [K|K]; [injection K as <- <- _; apply G2; exact H1|eapply H2; exact K].
Qed.

Section Looked.
Context {A : Type} (beh : behaviour A).
Hypothesis Reg : forall a k x a' l rm, beh a k x = Ok (a', l, rm) -> rm = false /\ Forall registering l.

Lemma collected_app : forall a T L b T' L' c, collected beh a T L b -> collected beh b T' L' c -> collected beh a (T ++ T') (L ++ L') c.
Proof. intros a T L b T' L' c K. induction K as [|a k x a' l rm T L b E K IH]; intros K'; [exact K'|]. cbn [app]. rewrite <- app_assoc. econstructor; [exact E|]. apply IH. exact K'. Qed.

Record looks (s : qrys) (a : A) (s' : qrys) (a' : A) : Prop := mklooks {
  lo_gains : gains s s';
  lo_told : exists T L, told s' = told s ++ T /\ collected beh a T L a' /\ forall n ty cb, In (n, ty, cb) L -> has s' n ty
}.
Lemma looks_same : forall s s' a, gains s s' -> told s' = told s -> looks s a s' a.
Proof. intros s s' a G E. split; [exact G|]. exists [], []. rewrite app_nil_r. split; [exact E|]. split; [constructor|intros n ty cb []]. Qed.
Lemma looks_refl : forall s a, below s -> looks s a s a.
Proof. intros s a B. apply looks_same; [apply gains_same; auto|reflexivity]. Qed.
Lemma looks_trans : forall s a s1 a1 s2 a2, looks s a s1 a1 -> looks s1 a1 s2 a2 -> looks s a s2 a2.
Proof.
  intros s a s1 a1 s2 a2 [G1 (T1 & L1 & E1 & C1 & H1)] [G2 (T2 & L2 & E2 & C2 & H2)]. split; [eapply gains_trans; eauto|]. exists (T1 ++ T2), (L1 ++ L2). split; [rewrite E2, E1; symmetry; apply app_assoc|].
  split; [eapply collected_app; eauto|]. intros n ty cb K. apply in_app_or in K as [K|K]; [apply G2; eapply H1; exact K|eapply H2; exact K].
Qed.
Lemma looks_below : forall s a s' a', looks s a s' a' -> below s'.
Proof. intros s a s' a' [G _]. apply G. Qed.
Lemma looks_from : forall s s0 a s' a', below s -> qh s0 = qh s -> qfresh s0 = qfresh s -> told s0 = told s -> looks s0 a s' a' -> looks s a s' a'.
Proof. intros s s0 a s' a' B E1 E2 E3 K. eapply looks_trans; [|exact K]. apply looks_same; [apply gains_same; assumption|exact E3]. Qed.
Ltac from B E := eapply looks_from; [exact B| | | |exact E]; reflexivity.

Lemma looks_answer : forall t s a c s' a', below s -> q_answer_re beh s a t c = Ok (s', a') -> looks s a s' a'.
Proof.
  intros t s a c s' a' B E. unfold q_answer_re in E. cbv zeta in E. destruct (c_q c) as [q|]; [|discriminate].
  destruct (qget _ q) as [x| | |]; cbn [bind] in E; try discriminate. destruct (beh _ _ _) as [[[a1 l] rm]| | |] eqn:Eb; cbn [bind] in E; try discriminate.
  destruct (queries _ t l) as [s1| | |] eqn:E1; cbn [bind] in E; try discriminate. destruct (Reg _ _ _ _ _ _ Eb) as [-> F]. injection E as <- <-.
  apply gains_queries in E1 as K; [destruct K as [G H]|intros p y K; eapply B; exact K|exact F]. split.
  - eapply gains_trans; [|exact G]. apply gains_same; [exact B|reflexivity|reflexivity].
  - exists [(q_cb x, c_rr (if a_ttl (c_rr c) <=? t then set_cttl c 0 else c))], (l ++ []). split.
    + assert (Tq : forall l s s', Forall registering l -> queries s t l = Ok s' -> told s' = told s); [|rewrite (Tq _ _ _ F E1); reflexivity].
      clear. induction l as [|[[h ty] o] l IH]; intros s s' F E; cbn [queries] in E; [injection E as <-; reflexivity|]. inversion F as [|? ? F1 F2]; subst. destruct F1 as (h' & t' & cb & K). injection K as <- <- ->.
      destruct (mdnsd_query s t h ty (Some cb)) as [s1| | |] eqn:E1; cbn [bind] in E; try discriminate. rewrite (IH _ _ F2 E). unfold mdnsd_query in E1. destruct (q_find s h ty) as [o| | |]; cbn [bind] in E1; try discriminate. destruct o as [q|].
      * destruct (qget s q) as [y| | |]; cbn [bind] in E1; try discriminate. injection E1 as <-. reflexivity.
      * cbv zeta in E1. destruct (q_reset _ _) as [s2| | |] eqn:E2; cbn [bind] in E1; try discriminate. destruct (qget s2 _) as [y| | |]; cbn [bind] in E1; try discriminate. injection E1 as <-. unfold q_reset in E2.
        destruct (qget _ _) as [z| | |] in E2; cbn [bind] in E2; try discriminate. injection E2 as <-. destruct (_ && _); reflexivity.
    + split; [econstructor; [exact Eb|constructor]|]. rewrite app_nil_r. exact H.
Qed.
Lemma looks_expire : forall t i ids s a s' a', below s -> expire_re beh s a t i ids = Ok (s', a') -> looks s a s' a'.
Proof.
  intros t i ids. induction ids as [|id ids IH]; intros s a s' a' B E; cbn [expire_re] in E; [injection E as <- <-; apply looks_refl; exact B|].
  destruct (find_entry id (centries s i)) as [c|]; [|discriminate]. destruct (a_ttl (c_rr c) <=? t); [|eapply IH; [exact B|exact E]]. cbv zeta in E.
  destruct (c_q c) as [q|].
  - destruct (q_answer_re _ _ _ _ _) as [[s1 a1]| | |] eqn:E1; cbn [bind] in E; try discriminate. apply looks_answer in E1; [|exact B].
    assert (K : looks s a s1 a1) by (from B E1). eapply looks_trans; [exact K|eapply IH; [eapply looks_below; exact K|exact E]].
  - cbn [bind] in E. apply IH in E; [from B E|exact B].
Qed.
Lemma looks_gc : forall t is s a s' a', below s -> gc_re beh s a t is = Ok (s', a') -> looks s a s' a'.
Proof.
  intros t is. induction is as [|i is IH]; intros s a s' a' B E; cbn [gc_re] in E; [injection E as <- <-; apply looks_refl; exact B|].
  destruct (c_expire_re _ _ _ _ _) as [[s1 a1]| | |] eqn:E1; cbn [bind] in E; try discriminate. apply looks_expire in E1; [|exact B]. eapply looks_trans; [exact E1|eapply IH; [eapply looks_below; exact E1|exact E]].
Qed.
Lemma looks_delete : forall t i r n s a s' a', below s -> delete_re beh n s a t i r = Ok (s', a') -> looks s a s' a'.
Proof.
  intros t i r n. induction n as [|n IH]; intros s a s' a' B E; cbn [delete_re] in E; [discriminate|]. destruct (find _ _) as [c|]; [|injection E as <- <-; apply looks_refl; exact B]. cbv zeta in E.
  destruct (c_expire_re _ _ _ _ _) as [[s1 a1]| | |] eqn:E1; cbn [bind] in E; try discriminate. apply looks_expire in E1; [|exact B]. assert (K : looks s a s1 a1) by (from B E1).
  eapply looks_trans; [exact K|eapply IH; [eapply looks_below; exact K|exact E]].
Qed.
Lemma looks_cache : forall t cls r from s a s' a', below s -> cache_re beh s a t cls r from = Ok (s', a') -> looks s a s' a'.
Proof.
  intros t cls r from s a s' a' B E. unfold cache_re in E. cbv zeta in E.
  assert (K : forall s1 a1, (if rr_class r =? 32768 + cls then c_expire_re beh (set_centries s (cbucket (rr_name r)) (map (fun c => if c_match (rr_name r) (rr_type r) c then set_cttl c 0 else c) (centries s (cbucket (rr_name r))))) a t (cbucket (rr_name r)) else Ok (s, a)) = Ok (s1, a1) -> looks s a s1 a1).
  { intros s1 a1 E1. destruct (_ =? _); [|injection E1 as <- <-; apply looks_refl; exact B]. apply looks_expire in E1; [from B E1|exact B]. }
  destruct (if rr_class r =? 32768 + cls then _ else _) as [[s1 a1]| | |]; cbn [bind] in E; try discriminate. specialize (K s1 a1 eq_refl). eapply looks_trans; [exact K|]. apply looks_below in K. rename K into B1.
  destruct (rr_ttl r =? 0); [eapply looks_delete; [exact B1|exact E]|]. destruct (find _ _) as [c|]; [injection E as <- <-; apply looks_same; [apply gains_same; [exact B1| |]|]; reflexivity|].
  destruct (_ && _) in E; [injection E as <- <-; apply looks_refl; exact B1|]. destruct (cache_answer _ _ _) as [w|]; [|discriminate].
  destruct (q_find _ _ _) as [o| | |]; cbn [bind] in E; try discriminate. destruct o as [q|].
  - apply looks_answer in E; [from B1 E|exact B1].
  - injection E as <- <-. apply looks_same; [apply gains_same; [exact B1| |]|]; reflexivity.
Qed.
Lemma looks_responses : forall e from an d a did d' a', below (Q d) -> responses_re beh d a e from did an = Ok (d', a') -> looks (Q d) a (Q d') a'.
Proof.
  intros e from an. induction an as [|r an IH]; intros d a did d' a' B E; cbn [responses_re] in E; [injection E as <- <-; apply looks_refl; exact B|].
  destruct (contest d e from did r) as [[[d1 did1] skip]| | |] eqn:E1; cbn [bind] in E; try discriminate. destruct (contest_keeps _ _ _ _ _ _ _ _ E1) as [K1 K2]. rewrite <- K1 in *.
  destruct skip; [eapply IH; [exact B|exact E]|]. cbv zeta in E.
  assert (F : forall b : bool, Q (if b then add_received d1 r else d1) = Q d1) by (intros [|]; auto).
  destruct (cache_re _ _ _ _ _ _ _) as [[q a1]| | |] eqn:E2; cbn [bind] in E; try discriminate. rewrite F in E2. apply looks_cache in E2; [|exact B].
  eapply looks_trans; [exact E2|]. apply IH in E; [exact E|]. eapply looks_below. exact E2.
Qed.
Lemma looks_in : forall d a e m from d' a' n qs, rinv (R d) qs -> below (Q d) -> in_re beh d a e m from = Ok (d', a', n) -> looks (Q d) a (Q d') a'.
Proof.
  intros d a e m from d' a' n qs H B E. unfold in_re in E. destruct (is_shutdown d); [injection E as <- <- _; apply looks_refl; exact B|]. cbv zeta in E. set (d0 := with_now d (e_now e)) in *.
  destruct (is_local_spec d0 e from) as (i & tm & El & I). rewrite El in E. destruct (own_addr d0 from || listed i from); [injection E as <- <- _; apply looks_refl; exact B|].
  set (d1 := into d0 (R d0) i tm (Out.received d0)) in *. destruct (h_qr (m_header m) =? 0).
  - destruct (questions_sound (m_qd m) d1 e from false (m_id m) (m_an m) qs H ltac:(discriminate)) as (s' & i' & tm' & L' & b & qs' & Cf & E' & _).
    rewrite E' in E. cbn [bind] in E. injection E as <- <- _. apply looks_refl. exact B.
  - destruct (responses_re _ _ _ _ _ _ _) as [[d2 a2]| | |] eqn:E2; cbn [bind] in E; try discriminate. injection E as <- <- _. apply looks_responses in E2; [exact E2|exact B].
Qed.
Lemma looks_loop : forall n s a t frm cls q m best ret s' a' m' best' ret', below s -> query_loop_re beh n s a t frm cls q m best ret = Ok (s', a', m', best', ret') -> looks s a s' a'.
Proof.
  induction n as [|n IH]; intros s a t frm cls q m best ret s' a' m' best' ret' B E; cbn [query_loop_re] in E; [discriminate|]. destruct q as [i|]; [|injection E as <- <- _ _ _; apply looks_refl; exact B].
  unfold qget in E. destruct (qh s i) as [x|] eqn:Ex; cbn [bind] in E; [|discriminate]. destruct (_ || _) in E.
  { destruct (q_link s i) as [n1| | |]; cbn [bind] in E; try discriminate. eapply IH; [exact B|exact E]. }
  destruct (q_tries x =? 3).
  - destruct (c_expire_re _ _ _ _ _) as [[s1 a1]| | |] eqn:E1; cbn [bind] in E; try discriminate. apply looks_expire in E1; [|exact B].
    destruct (q_reset s1 i) as [s2| | |] eqn:E2; cbn [bind] in E; try discriminate. pose proof (gains_reset _ _ _ (looks_below _ _ _ _ E1) E2) as G2.
    assert (T2 : told s2 = told s1) by (unfold q_reset in E2; destruct (qget s1 i) as [y| | |]; cbn [bind] in E2; try discriminate; injection E2 as <-; destruct (_ && _); reflexivity).
    destruct (q_link s2 i) as [n1| | |]; cbn [bind] in E; try discriminate. eapply looks_trans; [exact E1|]. eapply looks_trans; [apply (looks_same _ _ _ G2 T2)|]. eapply IH; [apply G2|exact E].
  - cbv zeta in E. match type of E with context [qset s i ?y] => pose proof (gains_set s i x y B Ex eq_refl eq_refl) as G end.
    destruct (q_link _ i) as [n1| | |]; cbn [bind] in E; try discriminate. eapply looks_trans; [apply (looks_same _ _ _ G); reflexivity|]. eapply IH; [apply G|exact E].
Qed.
Lemma looks_out_query : forall s a t frm cls m s' a' m' ret, below s -> out_query_re beh s a t frm cls m = Ok (s', a', m', ret) -> looks s a s' a'.
Proof.
  intros s a t frm cls m s' a' m' ret B E. unfold out_query_re in E. destruct (_ && _) in E; [|injection E as <- <- _ _; apply looks_refl; exact B].
  destruct (query_ask _ _ _ _ _ _) as [[m1 best]| | |]; cbn [bind] in E; try discriminate. destruct (query_loop_re _ _ _ _ _ _ _ _ _ _ _) as [[[[[s1 a1] m2] best2] ret2]| | |] eqn:E1; cbn [bind] in E; try discriminate.
  injection E as <- <- _ _. apply looks_loop in E1; [|exact B]. eapply looks_trans; [exact E1|]. apply looks_same; [apply gains_same; [eapply looks_below; exact E1| |]|]; reflexivity.
Qed.
Lemma looks_out : forall d a e d' a' m n, below (Q d) -> out_re beh d a e = Ok (d', a', m, n) -> looks (Q d) a (Q d') a'.
Proof.
  intros d a e d' a' m n B E. unfold out_re in E. destruct (out_first d e) as [[[d1 m1] sent]| | |] eqn:E1; cbn [bind] in E; try discriminate. apply out_first_same in E1 as (s & ->).
  destruct sent as [[m2 ret]|]; [injection E as <- <- _ _; apply looks_refl; exact B|]. cbv zeta in E. destruct (out_query_re _ _ _ _ _ _ _) as [[[[q a1] m2] ret]| | |] eqn:E2; cbn [bind] in E; try discriminate.
  apply looks_out_query in E2; [|exact B]. destruct (_ <? _) in E; [|injection E as <- <- _ _; exact E2]. destruct (gc_re _ _ _ _ _) as [[q2 a2]| | |] eqn:E3; cbn [bind] in E; try discriminate.
  injection E as <- <- _ _. apply looks_gc in E3; [|eapply looks_below; exact E2]. eapply looks_trans; [exact E2|exact E3].
Qed.

(* ---- the loop ---- *)
Variable a0 : A.
Hypothesis Ad : adding beh (fun _ => True).

Definition thorough (d : daemon) (a : A) : Prop := exists L, collected beh a0 (told (Q d)) L a /\ forall n ty cb, In (n, ty, cb) L -> has (Q d) n ty.
Lemma thorough_looks : forall d a d' a', thorough d a -> looks (Q d) a (Q d') a' -> thorough d' a'.
Proof.
  intros d a d' a' (L & C & H) [G (T & L' & E & C' & H')]. exists (L ++ L'). split; [rewrite E; eapply collected_app; eauto|]. intros n ty cb K. apply in_app_or in K as [K|K]; [apply G; eapply H; exact K|eapply H'; exact K].
Qed.
Lemma runs_below : forall d a, runs beh (fun _ => True) a0 d a -> below (Q d) /\ exists qs, rinv (R d) qs.
Proof.
  intros d a K. destruct (runs_sound A beh (fun _ => True) a0 (adding_orderly _ _ _ Ad) Logic.I d a K) as [(qs & D) _]. split; [|exists qs; exact (ds_r _ _ _ _ _ D)].
  intros q x E. pose proof (so_inv _ _ _ _ (ds_q _ _ _ _ _ D)) as H. apply (qi_fresh _ H). congruence.
Qed.
Lemma thorough_receive : forall l s s' ok, sane A beh (fun _ => True) a0 s -> reading l -> thorough (l_daemon s) (l_prog s) -> mq_receive beh s l = Ok (s', ok) -> thorough (l_daemon s') (l_prog s').
Proof.
  induction l as [|[e x] l IH]; intros s s' ok K Rl Th E; cbn [mq_receive] in E; [injection E as <- _; exact Th|]. destruct x as [b from|]; [|injection E as <- _; exact Th].
  destruct (zlen b =? 0); [injection E as <- _; exact Th|]. cbv zeta in E. destruct (Rl e _ (or_introl eq_refl)) as [T Bb]. cbn in Bb. assert (Rl' : reading l) by (intros e' y J; apply Rl; right; exact J).
  destruct K as [K Hb]. assert (Hb' : forall i, is_byte (mq_fill (l_buf s) b i)) by (apply mq_fill_bytes; assumption).
  destruct (message_parse _ _) as [[[m p] q]| |u|] eqn:Ep; try discriminate.
  - destruct (in_re beh _ _ e m from) as [[[d' a'] n]| | |] eqn:E1; cbn [bind] in E; try discriminate.
    assert (K' : runs beh (fun _ => True) a0 d' a') by (eapply runs_in; [exact K|exact T| |exact E1]; eapply ParseWf.message_parse_wf; [|exact Ep]; exact Hb').
    eapply IH; [|exact Rl'| |exact E]; [split; [exact K'|exact Hb']|]. cbn [l_daemon l_prog]. destruct (runs_below _ _ K) as [B (qs & H)]. eapply thorough_looks; [exact Th|eapply looks_in; [exact H|exact B|exact E1]].
  - eapply IH; [|exact Rl'| |exact E]; [split; [exact K|exact Hb']|exact Th].
Qed.
Lemma thorough_send : forall l d a d' a' ps ok, runs beh (fun _ => True) a0 d a -> timed l -> thorough d a -> mq_send beh d a l = Ok (d', a', ps, ok) -> thorough d' a'.
Proof.
  induction l as [|[e sent] l IH]; intros d a d' a' ps ok K Tl Th E; cbn [mq_send] in E; [discriminate|]. destruct (out_re beh d a e) as [[[[d1 a1] m] n]| | |] eqn:E1; cbn [bind] in E; try discriminate.
  assert (K' : runs beh (fun _ => True) a0 d1 a1) by (eapply runs_out; [exact K|exact (Tl e sent (or_introl eq_refl))|left; exact Ad|exact E1]).
  assert (Th' : thorough d1 a1) by (eapply thorough_looks; [exact Th|eapply looks_out; [apply (runs_below _ _ K)|exact E1]]).
  destruct (n =? 0); [injection E as <- <- _ _; exact Th'|]. destruct (e_ovf _); [discriminate|]. destruct sent; [|injection E as <- <- _ _; exact Th'].
  destruct (mq_send beh d1 a1 l) as [[[[d2 a2] ps2] ok2]| | |] eqn:E2; cbn [bind] in E; try discriminate. injection E as <- <- _ _. eapply IH; [exact K'| |exact Th'|exact E2]. intros e' b J. apply (Tl e' b). right. exact J.
Qed.
Lemma thorough_turn : forall terminate wait start s e ready li lo t s' sl ps v, sane A beh (fun _ => True) a0 s -> 0 <= fst (e_now e) -> reading li -> timed lo ->
  thorough (l_daemon s) (l_prog s) -> turn beh terminate wait start s e ready li lo t = Ok (s', sl, ps, v) -> thorough (l_daemon s') (l_prog s').
Proof.
  intros terminate wait start s e ready li lo t s' sl ps v [K Hb] T Rl Tl Th E. unfold turn in E. destruct (sleep_ok A beh (fun _ => True) a0 Ad Logic.I _ _ e K T) as (d & sl1 & E1 & K1). rewrite E1 in E. cbn [bind] in E.
  assert (Th1 : thorough d (l_prog s)).
  { destruct (runs_below _ _ K) as [_ (qs & H)]. destruct (mdnsd_sleep_spec (l_daemon s) e qs H) as (d2 & t2 & qs' & Es & O & _). rewrite E1 in Es. injection Es as <- _. assert (Qd : Q d = Q (l_daemon s)) by (destruct O; reflexivity).
    unfold thorough in *. rewrite Qd. exact Th. }
  set (s1 := mkloop d (l_prog s) (l_buf s) (l_last s)) in E. assert (S1 : sane A beh (fun _ => True) a0 s1) by (split; assumption).
  pose proof (receive_ok A beh (fun _ => True) a0 Ad Logic.I li s1 S1 Rl) as Rc.
  assert (R2 : forall s2 ok, (if ready then mq_receive beh s1 li else Ok (s1, true)) = Ok (s2, ok) -> thorough (l_daemon s2) (l_prog s2) /\ sane A beh (fun _ => True) a0 s2).
  { intros s2 ok E2. destruct ready; [|injection E2 as <- _; split; [exact Th1|exact S1]]. rewrite E2 in Rc. split; [|exact Rc]. eapply thorough_receive; [exact S1|exact Rl|exact Th1|exact E2]. }
  destruct (if ready then _ else _) as [[s2 ok]| | |]; cbn [bind] in E; try discriminate. destruct (R2 _ _ eq_refl) as [Th2 [K2 B2]]. destruct ok; cbn [negb] in E; [|injection E as <- _ _ _; exact Th2].
  destruct (mq_send beh _ _ lo) as [[[[d3 a3] ps3] ok3]| | |] eqn:E3; cbn [bind] in E; try discriminate. injection E as <- _ _ _. cbn [l_daemon l_prog]. eapply thorough_send; [exact K2|exact Tl|exact Th2|exact E3].
Qed.
Lemma session_thorough : forall terminate wait start s, session beh a0 terminate wait start s -> thorough (l_daemon s) (l_prog s).
Proof.
  intros terminate wait start s K. induction K as [t family name type buf s T Et B E|s e ready li lo t s' sl ps K IH T Rl Tl E].
  - unfold begin in E. cbn [step] in E. cbn [bind] in E. destruct (mdnsd_query _ _ _ _ _) as [q| | |] eqn:E1; cbn [bind] in E; try discriminate. injection E as <-. exists []. cbn [l_daemon l_prog with_Q Q]. split; [|intros n ty cb []].
    assert (H : qinv (Q (mdnsd_new t 1 1000))) by (destruct (calm_new t 1 1000 T) as (H & _); exact H).
    match type of E1 with mdnsd_query ?a ?b ?h ?ty ?c = _ => destruct (mdnsd_query_spec a b h ty c) as (s' & o & E' & _ & _ & _ & _ & _ & Tt & _) end; [exact H|]. rewrite E1 in E'. injection E' as <-. rewrite Tt. constructor.
  - eapply thorough_turn; [|exact T|exact Rl|exact Tl|exact IH|exact E]. eapply session_sane; [exact Ad|exact Logic.I|exact K].
Qed.

Lemma collected_replayed : forall a T L b, collected beh a T L b -> replayed beh a T b.
Proof. intros a T L b K. induction K; [constructor|econstructor; eauto]. Qed.
Lemma collected_in : forall T1 a k x T2 L b, collected beh a (T1 ++ (k, x) :: T2) L b -> exists a1 a2 l rm, replayed beh a T1 a1 /\ beh a1 k x = Ok (a2, l, rm) /\ incl l L.
Proof.
  induction T1 as [|[k1 x1] T1 IH]; intros a k x T2 L b K; cbn [app] in K; inversion K; subst.
  - exists a, a', l, rm. split; [constructor|]. split; [assumption|]. intros y I. apply in_or_app. left. exact I.
  - destruct (IH _ _ _ _ _ _ H6) as (a1 & a2 & l2 & rm2 & R1 & E1 & I1). exists a1, a2, l2, rm2. split; [econstructor; eauto|]. split; [exact E1|]. intros y I. apply in_or_app. right. apply I1. exact I.
Qed.
Lemma has_registered : forall d a n ty, runs beh (fun _ => True) a0 d a -> has (Q d) n ty -> exists x, registered d x /\ is_for x n ty.
Proof.
  intros d a n ty K (q & x & E & N & T). exists x. split; [|split; assumption]. exists q. split; [|exact E]. destruct (runs_sound A beh (fun _ => True) a0 (adding_orderly _ _ _ Ad) Logic.I d a K) as [(qs & D) _].
  apply (qi_live _ (so_inv _ _ _ _ (ds_q _ _ _ _ _ D))). congruence.
Qed.
Lemma session_registered : forall terminate wait start s, session beh a0 terminate wait start s ->
  replayed beh a0 (told (Q (l_daemon s))) (l_prog s) /\
  forall T1 k x T2, told (Q (l_daemon s)) = T1 ++ (k, x) :: T2 -> exists a1 a2 l rm, replayed beh a0 T1 a1 /\ beh a1 k x = Ok (a2, l, rm) /\
    forall n ty cb, In (n, ty, cb) l -> exists y, registered (l_daemon s) y /\ is_for y n ty.
Proof.
  intros terminate wait start s K. destruct (session_thorough _ _ _ _ K) as (L & C & H). destruct (session_sane A beh (fun _ => True) a0 Ad Logic.I _ _ _ _ K) as [Rn _]. split; [eapply collected_replayed; exact C|].
  intros T1 k x T2 E. rewrite E in C. destruct (collected_in _ _ _ _ _ _ _ C) as (a1 & a2 & l & rm & R1 & E1 & I1). exists a1, a2, l, rm. split; [exact R1|]. split; [exact E1|].
  intros n ty cb J. eapply has_registered; [exact Rn|]. eapply H. apply I1. exact J.
Qed.
End Looked.

Lemma ans_dev_reg : forall ntop a k x a' l rm, ans_dev ntop a k x = Ok (a', l, rm) -> rm = false /\ Forall registering l.
Proof.
  assert (Rg : forall n ty k, registering (n, ty, Some k)) by (intros n ty k; unfold registering; eauto).
  assert (Ad : forall s n t a' l rm, add_device s n t = Ok (a', l, rm) -> rm = false /\ Forall registering l).
  { intros s n t a' l rm E. unfold add_device in E. destruct (find_or_create_device _ _) as [l1 k]. destruct (device_add_addr _ _) as [v| | |]; cbn [bind] in E; try discriminate. injection E as _ <- <-. auto. }
  intros ntop a k x a' l rm E. unfold ans_dev in E. destruct (a_ttl x =? 0); [injection E as _ <- <-; auto|].
  destruct (a_type x =? QTYPE_PTR).
  { destruct (a_rdname x) as [[|c n]|]; try (injection E as _ <- <-; auto). destruct (Nat.eqb k PLAIN); injection E as _ <- <-; auto. }
  destruct (a_type x =? QTYPE_SRV).
  { destruct (a_rdname x) as [[|c n]|]; try (injection E as _ <- <-; auto). destruct (find_or_create_instance _ _) as [l1 j]. cbv zeta in E. destruct (i_host _); injection E as _ <- <-; auto. }
  destruct (a_type x =? QTYPE_TXT).
  { destruct (a_rdata x) as [[|c n]|]; try (injection E as _ <- <-; auto). destruct (find_or_create_instance _ _) as [l1 j]. cbv zeta in E. destruct (SdTxt.txt2sd _ _) as [t| | |]; cbn [bind] in E; try discriminate. injection E as _ <- <-. auto. }
  destruct (a_type x =? QTYPE_A); [eapply Ad; exact E|]. destruct (a_type x =? QTYPE_AAAA); [eapply Ad; exact E|]. injection E as _ <- <-. auto.
Qed.
Lemma ans_reg : forall ntop simple a k x a' l rm, ans ntop simple a k x = Ok (a', l, rm) -> rm = false /\ Forall registering l.
Proof.
  assert (Rg : forall n ty k, registering (n, ty, Some k)) by (intros n ty k; unfold registering; eauto).
  intros ntop simple a k x a' l rm E. unfold ans in E. destruct (negb simple).
  { destruct (negb _) in E; [injection E as _ <- <-; auto|]. destruct (a_rdname x) as [n|]; [|discriminate]. injection E as _ <- <-. split; [reflexivity|]. destruct (Nat.eqb _ _); auto. }
  repeat match type of E with context [if ?b then _ else _] => destruct b end; try (injection E as _ <- <-; auto); destruct (a_rdname x) as [n|]; try discriminate; injection E as _ <- <-; auto.
Qed.
