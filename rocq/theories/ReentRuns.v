(* Programs with such callbacks are safe. *)
From Verif Require Import Base Lemmas Hash HashProofs XhtProofs Wire Rec Qry Out In Api Reent SpecReent RecInv RecSafe RecOps OutSafe QryInv QryOps CacheOps QryReg QryLoop InSafe InLoop InResp OutSpec DaemonInv ReentFacts ReentSafe ReentAgree.

Lemma named_ttl : forall x t, named x -> named (set_ttl x t).
Proof. intros x t N. exact N. Qed.
Lemma named_new : forall r ttl from w, wf_resource r -> cache_answer r ttl from = Some w -> named w.
Proof.
  intros r ttl from w (_ & _ & W1 & W2 & _) E I. unfold cache_answer in E.
  destruct (rr_type r =? QTYPE_A) eqn:C1.
  { exfalso. injection E as <-. cbn [put_ip a_type] in I. apply Z.eqb_eq in C1. rewrite C1 in I. destruct I as [I|[I|[I|[I|[]]]]]; discriminate. }
  destruct (rr_type r =? QTYPE_AAAA) eqn:C2.
  { exfalso. injection E as <-. cbn [put_ip6 a_type] in I. apply Z.eqb_eq in C2. rewrite C2 in I. destruct I as [I|[I|[I|[I|[]]]]]; discriminate. }
  destruct (is_name_type (rr_type r)) eqn:C3.
  { destruct (W2 eq_refl) as (n & En). unfold known_name in E. rewrite En in E. destruct (family from =? AF_INET6); injection E as <-; cbn [put_ip put_ip6 put_host a_rdname]; discriminate. }
  destruct (rr_type r =? QTYPE_SRV) eqn:C4.
  { destruct (W1 ltac:(lia)) as (p & v & q & n & En). unfold known_name, known_srv in E. rewrite En in E. injection E as <-. cbn [put_srv put_host a_rdname]. discriminate. }
  exfalso. injection E as <-. cbn [a_type] in I. unfold is_name_type in C3. destruct I as [I|[I|[I|[I|[]]]]]; rewrite <- I in *; vm_compute in C3, C4; discriminate.
Qed.

Lemma registering_iff : forall c, registering c <-> registers c.
Proof.
  intros [[h ty] [cb|]]; unfold registering, registers; cbn [snd]; split; intros K; try discriminate; [eauto|destruct K as (h' & t' & cb' & K); discriminate|congruence].
Qed.
Lemma registering_all : forall l, Forall registering l <-> Forall registers l.
Proof. intros l. split; intros F; (eapply Forall_impl; [|exact F]); intros c; apply registering_iff. Qed.

Lemma orderly_hyp : forall A (beh : behaviour A) I, orderly beh I -> forall a k x, I a -> named x ->
  exists a' l rm, beh a k x = Ok (a', l, rm) /\ I a' /\ (rm = true -> Forall registers l) /\ (false = true -> rm = false /\ Forall registers l).
Proof.
  intros A beh I O a k x Ia N. destruct (O a k x Ia N) as (a' & l & rm & E & I' & R). exists a', l, rm. split; [exact E|]. split; [exact I'|]. split; [|discriminate].
  intros K. apply registering_all. exact (R K).
Qed.
Lemma adding_hyp : forall A (beh : behaviour A) I, adding beh I -> forall a k x, I a -> named x ->
  exists a' l rm, beh a k x = Ok (a', l, rm) /\ I a' /\ (rm = true -> Forall registers l) /\ (true = true -> rm = false /\ Forall registers l).
Proof.
  intros A beh I O a k x Ia N. destruct (O a k x Ia N) as (a' & l & E & I' & R). exists a', l, false. split; [exact E|]. split; [exact I'|]. apply registering_all in R. auto.
Qed.

Lemma replay_replayed : forall A (beh : behaviour A) a T a', replay beh a T a' -> replayed beh a T a'.
Proof. intros A beh a T a' K. induction K; [constructor|econstructor; eauto]. Qed.

Lemma other_step : forall d e o d' x qs, rinv (R d) qs -> qinv (Q d) -> 0 <= fst (e_now e) -> (forall m from, o <> OIn m from) -> o <> OOut ->
  step d e o = Ok (d', x) -> told (Q d') = told (Q d) /\ (holds named (Q d) -> holds named (Q d')).
Proof.
  intros d e o d' x qs HR H N NI NO E.
  assert (Rc : forall y, on_recs d y = Ok (d', x) -> Q d' = Q d) by (intros [s| | |]; unfold on_recs; cbn [bind]; try discriminate; intros [= <- _]; reflexivity).
  assert (Rn : forall y, on_new d y = Ok (d', x) -> Q d' = Q d) by (intros [[s r]| | |]; unfold on_new; cbn [bind]; try discriminate; intros [= <- _]; reflexivity).
  assert (S : Q d' = Q d -> told (Q d') = told (Q d) /\ (holds named (Q d) -> holds named (Q d'))) by (intros K; rewrite K; auto).
  destruct o; cbn [step] in E; try (apply S; (apply Rc in E || apply Rn in E); exact E).
  - destruct (bytes_eqb _ _) in E; [injection E as <- _; apply S; reflexivity|]. destruct (set_all _ _ _ _ _) as [s| | |]; cbn [bind] in E; try discriminate. injection E as <- _. apply S. reflexivity.
  - destruct (bytes_eqb _ _) in E; [injection E as <- _; apply S; reflexivity|]. destruct (set_all _ _ _ _ _) as [s| | |]; cbn [bind] in E; try discriminate. injection E as <- _. apply S. reflexivity.
  - injection E as <- _. apply S. reflexivity.
  - injection E as <- _. apply S. reflexivity.
  - destruct (shutdown_recs _) as [s| | |]; cbn [bind] in E; try discriminate. injection E as <- _. apply S. reflexivity.
  - match type of E with context[mdnsd_query ?a ?b ?h ?t ?c] => destruct (mdnsd_query_spec a b h t c H) as (s' & o & E' & _ & _ & _ & Cs & _ & Tt & _) end.
    rewrite E' in E. cbn [bind] in E. injection E as <- _. cbn [with_Q Q]. split; [exact Tt|].
    intros Hh i c I. destruct (Forall2_in_r _ _ _ _ _ _ (Cs i) I) as (c0 & I0 & _ & R0). rewrite <- ?R0. rewrite ?R0. eapply Hh; exact I0.
  - destruct (NI m from eq_refl).
  - destruct (NO eq_refl).
  - destruct (mdnsd_sleep_spec d e qs HR) as (d2 & t & qs' & Es & O & _). rewrite Es in E. cbn [bind] in E. injection E as <- _. apply S. destruct O; reflexivity.
  - injection E as <- _. apply S. reflexivity.
Qed.

Section Runs.
Variable A : Type.
Variable beh : behaviour A.
Variable I : A -> Prop.
Variable a0 : A.
Hypothesis O : orderly beh I.
Hypothesis I0 : I a0.

Lemma dsound_of : forall d a qs, dinv d qs -> holds named (Q d) -> I a -> dsound I named d a qs.
Proof. intros d a qs [H (C1 & C2 & C3 & C4)] Hh Ha. split; [exact H| |exact C4]. split; assumption. Qed.
Lemma dsound_dinv : forall d a qs, dsound I named d a qs -> dinv d qs.
Proof. intros d a qs [H [S1 S2 S3 S4 S5] N]. split; [exact H|]. exact (conj S1 (conj S2 (conj S3 N))). Qed.

Lemma runs_in_ok : forall d a e m from qs, dsound I named d a qs -> 0 <= fst (e_now e) -> wf_message m ->
  exists d' a' n qs', in_re beh d a e m from = Ok (d', a', n) /\ dsound I named d' a' qs' /\ tells beh named (Q d) a (Q d') a' /\ is_shutdown d' = is_shutdown d.
Proof. intros d a e m from qs. apply (in_re_ok beh I named false named_ttl named_new (orderly_hyp A beh I O)). Qed.
Lemma runs_out_ok : forall d a e qs, dsound I named d a qs -> 0 <= fst (e_now e) -> adding beh I \/ unexhausted d (fst (e_now e)) ->
  exists d' a' m n qs', out_re beh d a e = Ok (d', a', m, n) /\ dsound I named d' a' qs' /\ tells beh named (Q d) a (Q d') a' /\ is_shutdown d' = is_shutdown d.
Proof.
  intros d a e qs D N [Ad|U].
  - apply (out_re_ok beh I named true named_ttl named_new (adding_hyp A beh I Ad) d a e qs D N); auto.
  - apply (out_re_ok beh I named false named_ttl named_new (orderly_hyp A beh I O) d a e qs D N); auto.
Qed.

Lemma runs_sound : forall d a, runs beh I a0 d a -> (exists qs, dsound I named d a qs) /\ replayed beh a0 (told (Q d)) a /\ Forall (fun t => named (snd t)) (told (Q d)).
Proof.
  assert (T : forall d a d' a', replayed beh a0 (told (Q d)) a /\ Forall (fun t => named (snd t)) (told (Q d)) -> tells beh named (Q d) a (Q d') a' ->
    replayed beh a0 (told (Q d')) a' /\ Forall (fun t => named (snd t)) (told (Q d'))).
  { intros d a d' a' [Rp F] (T & E & Rt & Ft). rewrite E. split; [|apply Forall_app; auto]. apply replay_replayed in Rt. clear - Rp Rt.
    induction Rp as [|a1 k x a2 l rm T' a3 Eb K IH]; [exact Rt|]. cbn [app]. econstructor; [exact Eb|]. apply IH. exact Rt. }
  intros d a K. induction K as [t cls frm N|d a e o d' x K [(qs & D) Rp] L NI NO E|d a e m from d' a' n K [(qs & D) Rp] N W E|d a e d' a' m n K [(qs & D) Rp] N M E].
  - split; [|split; [constructor|constructor]]. exists (fun _ => []). apply dsound_of; [split; [apply new_rinv|apply calm_new; exact N]| |exact I0].
    intros i c J. exfalso. cbn [mdnsd_new Q] in J. unfold centries, qrys_new in J. cbn [cache] in J.
    assert (Z : forall n i, nth i (repeat ([] : list cached) n) [] = []) by (induction n as [|n IH]; intros [|j]; cbn [repeat nth]; auto). rewrite Z in J. destruct J.
  - destruct (other_step d e o d' x qs (ds_r _ _ _ _ _ D) (so_inv _ _ _ _ (ds_q _ _ _ _ _ D)) (proj1 L) NI NO E) as [Et Eh]. rewrite Et. split; [|exact Rp].
    destruct (step_ok d e o qs (dsound_dinv _ _ _ D) L) as (d2 & x2 & qs2 & E2 & D2). rewrite E in E2. injection E2 as <- <-. exists qs2.
    apply dsound_of; [exact D2|apply Eh; exact (so_holds _ _ _ _ (ds_q _ _ _ _ _ D))|exact (so_ia _ _ _ _ (ds_q _ _ _ _ _ D))].
  - destruct (runs_in_ok d a e m from qs D N W) as (d2 & a2 & n2 & qs2 & E2 & D2 & T2 & _). rewrite E in E2. injection E2 as <- <- <-. split; [eauto|]. eapply T; eassumption.
  - destruct (runs_out_ok d a e qs D N M) as (d2 & a2 & m2 & n2 & qs2 & E2 & D2 & T2 & _). rewrite E in E2. injection E2 as <- <- <- <-. split; [eauto|]. eapply T; eassumption.
Qed.

(* Every call of the program succeeds *)
Lemma runs_safe : forall d a e, runs beh I a0 d a -> 0 <= fst (e_now e) ->
  (forall o, legal d e o -> exists d' x, step d e o = Ok (d', x)) /\
  (forall m from, wf_message m -> exists d' a' n, in_re beh d a e m from = Ok (d', a', n)) /\
  (adding beh I \/ unexhausted d (fst (e_now e)) -> exists d' a' m n, out_re beh d a e = Ok (d', a', m, n)).
Proof.
  intros d a e K N. destruct (runs_sound d a K) as [(qs & D) _]. split; [|split].
  - intros o L. destruct (step_ok d e o qs (dsound_dinv _ _ _ D) L) as (d2 & x2 & qs2 & E2 & D2). eauto.
  - intros m from W. destruct (runs_in_ok d a e m from qs D N W) as (d2 & a2 & n2 & qs2 & E2 & _). eauto.
  - intros M. destruct (runs_out_ok d a e qs D N M) as (d2 & a2 & m2 & n2 & qs2 & E2 & _). eauto 6.
Qed.
End Runs.

Lemma program_safe : forall A (beh : behaviour A) I a0 d a e, orderly beh I -> I a0 -> runs beh I a0 d a -> 0 <= fst (e_now e) ->
  (forall o, legal d e o -> exists d' x, step d e o = Ok (d', x)) /\
  (forall m from, wf_message m -> exists d' a' n, in_re beh d a e m from = Ok (d', a', n)) /\
  (adding beh I \/ unexhausted d (fst (e_now e)) -> exists d' a' m n, out_re beh d a e = Ok (d', a', m, n)).
Proof. intros A beh I a0 d a e O I0 K N. exact (runs_safe A beh I a0 O I0 d a e K N). Qed.
Lemma program_replayed : forall A (beh : behaviour A) I a0 d a, orderly beh I -> I a0 -> runs beh I a0 d a ->
  replayed beh a0 (told (Q d)) a /\ Forall (fun t => named (snd t)) (told (Q d)).
Proof. intros A beh I a0 d a O I0 K. exact (proj2 (runs_sound A beh I a0 O I0 d a K)). Qed.

Lemma agree_in : forall d e m from, reach d -> legal d e (OIn m from) ->
  in_re (fun k _ _ => Ok (S k, [], e_cb e k)) d (ncb (Q d)) e m from = ('(d', n) <- mdnsd_in d e m from;; Ok (d', ncb (Q d'), n)).
Proof. intros d e m from K [N W]. destruct (reach_inv d K) as (qs & H & (C1 & _)). exact (in_agree d e m from qs H C1 N W). Qed.
Lemma agree_out : forall d e, reach d ->
  out_re (fun k _ _ => Ok (S k, [], e_cb e k)) d (ncb (Q d)) e = ('(d', m, n) <- mdnsd_out d e;; Ok (d', ncb (Q d'), m, n)).
Proof. intros d e K. destruct (reach_inv d K) as (qs & H & (C1 & _)). exact (out_agree d e C1). Qed.
