(* Supporting proofs for PropMqTypes.v: which callback a query has. *)
From Verif Require Import Base Lemmas Hash Wire Rec Qry Out In Api Reent SpecDaemon SpecCache SpecReent RecInv RecSafe QryInv QryReg QryLoop OutSpec DaemonInv InSafe InLoop InResp ReentFacts ReentSafe ReentRuns ReentAsk Step SpecStep Mquery SpecMquery SpecMqTypes FactsMq FactsMq2 FactsMq3 FactsMq4 FactsMq6 FactsMq8 FactsMq7.

Lemma session_of_session : forall A (beh : behaviour A) a0 terminate wait start name type s, session_of beh a0 terminate wait start name type s -> session beh a0 terminate wait start s.
Proof. intros A beh a0 terminate wait start name type s K. induction K; [eapply session_begin; eassumption|eapply session_turn; eassumption]. Qed.

Lemma in_upd : forall A (L : list (list A)) i j l c, In c (nth j (upd L i l) []) -> In c l \/ In c (nth j L []).
Proof.
  induction L as [|x L IH]; intros i j l c K; [right; destruct i; exact K|]. destruct i as [|i], j as [|j]; cbn [upd nth] in *; auto. apply IH in K. exact K.
Qed.
Lemma find_query_is : forall s l h ty q, find_query s l h ty = Ok (Some q) -> exists x, qh s q = Some x /\ q_nm x = h /\ q_ty x = ty.
Proof.
  intros s l h ty q. induction l as [|x l IH]; cbn [find_query]; [discriminate|]. unfold qget. destruct (qh s x) as [y|] eqn:E; cbn [bind]; [|discriminate].
  destruct ((q_ty y =? ty) && bytes_eqb (q_nm y) h) eqn:C; [|exact IH]. intros K. injection K as <-. apply andb_true_iff in C as [C1 C2]. apply bytes_eqb_eq in C2. exists y. split; [exact E|]. split; [exact C2|lia].
Qed.
Lemma cache_answer_is : forall r ttl from w, cache_answer r ttl from = Some w -> a_name w = rr_name r /\ a_type w = rr_type r.
Proof.
  intros r ttl from w E. unfold cache_answer in E. cbv zeta in E. destruct (_ =? QTYPE_A); [injection E as <-; split; reflexivity|]. destruct (_ =? QTYPE_AAAA); [injection E as <-; split; reflexivity|].
  destruct (is_name_type _); [destruct (known_name r); [|discriminate]; injection E as <-; destruct (_ =? AF_INET6); split; reflexivity|].
  destruct (_ =? QTYPE_SRV); [destruct (known_name r); [|discriminate]; destruct (known_srv r) as [[p w'] q]; injection E as <-; split; reflexivity|]. injection E as <-. split; reflexivity.
Qed.

Section Owners.
Context {A : Type} (beh : behaviour A).
(* What may be said of the callback of a query, given what was told *)
Variable fit : list call -> list Z -> Z -> nat -> Prop.
Hypothesis Fmono : forall T U n ty k, fit T n ty k -> fit (T ++ U) n ty k.
Hypothesis Fany : forall T n ty k, fit T n ty k -> ty <> QTYPE_ANY.
Hypothesis Freg : forall a k x a' l rm T, beh a k x = Ok (a', l, rm) -> fit T (a_name x) (a_type x) k -> rm = false /\ Forall (fun c : qcall => exists h t cb, c = (h, t, Some cb) /\ fit (T ++ [(k, x)]) h t cb) l.

Definition owned (s : qrys) (c : cached) : Prop := forall q, c_q c = Some q -> exists x, qh s q = Some x /\ c_match (q_nm x) (q_ty x) c = true.
Record proper (s : qrys) : Prop := mkproper {
  pr_below : below s;
  pr_fit : forall q x, qh s q = Some x -> fit (told s) (q_nm x) (q_ty x) (q_cb x);
  pr_owned : forall i c, In c (centries s i) -> owned s c;
  pr_told : forall k x, In (k, x) (told s) -> fit (told s) (a_name x) (a_type x) k
}.

Lemma proper_same : forall s s', proper s -> qh s' = qh s -> qfresh s' = qfresh s -> told s' = told s -> (forall i c, In c (centries s' i) -> owned s c) -> proper s'.
Proof.
  intros s s' [P1 P2 P3 P4] E1 E2 E3 H. split.
  - intros q x K. rewrite E1 in K. rewrite E2. eapply P1; exact K.
  - intros q x K. rewrite E1 in K. rewrite E3. eapply P2; exact K.
  - intros i c K q Kq. rewrite E1. exact (H i c K q Kq).
  - rewrite E3. exact P4.
Qed.
Lemma proper_entries : forall s i l, proper s -> (forall c, In c l -> owned s c) -> proper (set_centries s i l).
Proof.
  intros s i l P H. eapply proper_same; [exact P|reflexivity|reflexivity|reflexivity|]. intros j c K. unfold centries in K. cbn [set_centries set_cache cache] in K. apply in_upd in K as [K|K]; [apply H; exact K|eapply pr_owned; [exact P|exact K]].
Qed.
Lemma owned_ttl : forall s c t, owned s c -> owned s (set_cttl c t).
Proof. intros s c t O q E. destruct (O q E) as (x & Ex & M). exists x. split; [exact Ex|exact M]. Qed.
Lemma proper_ttl : forall s i (p : cached -> bool) t, proper s -> proper (set_centries s i (map (fun c => if p c then set_cttl c t else c) (centries s i))).
Proof.
  intros s i p t P. apply proper_entries; [exact P|]. intros c K. apply in_map_iff in K as (y & <- & K). pose proof (pr_owned _ P i y K) as O. destruct (p y); [apply owned_ttl|]; exact O.
Qed.
Lemma proper_set : forall s q x y, proper s -> qh s q = Some x -> q_nm y = q_nm x -> q_ty y = q_ty x -> fit (told s) (q_nm y) (q_ty y) (q_cb y) -> proper (qset s q y).
Proof.
  intros s q x y [P1 P2 P3 P4] E N T F. split; cbn [qset set_qh qh told].
  - intros p z K. cbn [qset set_qh qh] in K. change (qfresh (qset s q y)) with (qfresh s). destruct (Nat.eqb_spec p q) as [->|D]; [eapply P1; exact E|eapply P1; exact K].
  - intros p z K. destruct (Nat.eqb_spec p q) as [->|D]; [injection K as <-; exact F|eapply P2; exact K].
  - intros i c K p Kp. destruct (P3 i c K p Kp) as (z & Ez & M). cbn [qset set_qh qh]. destruct (Nat.eqb_spec p q) as [->|D]; [|exists z; auto]. exists y. split; [reflexivity|]. replace z with x in M by congruence. rewrite N, T. exact M.
  - exact P4.
Qed.
Lemma proper_reset : forall s q s', proper s -> q_reset s q = Ok s' -> proper s' /\ told s' = told s /\ qfresh s' = qfresh s.
Proof.
  intros s q s' P E. unfold q_reset, qget in E. destruct (qh s q) as [x|] eqn:Eq; cbn [bind] in E; [|discriminate]. cbv zeta in E.
  match type of E with context [qset s q ?y] => pose proof (proper_set s q x y P Eq eq_refl eq_refl (pr_fit _ P q x Eq)) as P1 end.
  injection E as <-. destruct (_ && _); [|split; [exact P1|split; reflexivity]]. split; [|split; reflexivity]. eapply proper_same; [exact P1|reflexivity|reflexivity|reflexivity|]. intros i c K. exact (pr_owned _ P1 i c K).
Qed.
Lemma proper_query : forall t s h ty cb s', proper s -> fit (told s) h ty cb -> mdnsd_query s t h ty (Some cb) = Ok s' -> proper s' /\ told s' = told s.
Proof.
  intros t s h ty cb s' P F E. unfold mdnsd_query in E. destruct (q_find s h ty) as [o| | |] eqn:Ef; cbn [bind] in E; try discriminate. destruct o as [q|].
  - apply find_query_is in Ef as (x & Ex & Nx & Tx). unfold qget in E. rewrite Ex in E. cbn [bind] in E. injection E as <-. split; [|reflexivity]. apply (proper_set s q x); [exact P|exact Ex|reflexivity|reflexivity|]. cbn [set_qcb q_nm q_ty q_cb]. rewrite Nx, Tx. exact F.
  - cbv zeta in E. match type of E with context [q_reset ?z _] => set (s1 := z) in * end.
    assert (P1 : proper s1).
    { destruct P as [B1 B2 B3 B4]. split.
      - intros p y K. unfold s1 in K. cbn [qh] in K. change (qfresh s1) with (S (qfresh s)). destruct (Nat.eqb_spec p (qfresh s)) as [->|D]; [lia|]. apply B1 in K. lia.
      - intros p y K. unfold s1 in K. cbn [qh] in K. change (told s1) with (told s). destruct (Nat.eqb_spec p (qfresh s)) as [->|D]; [injection K as <-; exact F|eapply B2; exact K].
      - assert (Old : forall c, owned s c -> owned s1 c).
        { intros c O p Kp. destruct (O p Kp) as (y & Ey & M). exists y. split; [|exact M]. unfold s1. cbn [qh]. destruct (Nat.eqb_spec p (qfresh s)) as [->|D]; [apply B1 in Ey; lia|exact Ey]. }
        intros i c K. unfold centries, s1 in K. cbn [cache] in K. apply in_upd in K as [K|K]; [|apply Old; exact (B3 i c K)].
        apply in_map_iff in K as (y & <- & K). destruct (c_match h ty y) eqn:M; [|apply Old; exact (B3 _ y K)].
        intros p Kp. cbn [set_cq c_q] in Kp. injection Kp as <-. eexists. split; [unfold s1; cbn [qh]; rewrite Nat.eqb_refl; reflexivity|exact M].
      - exact B4. }
    destruct (q_reset s1 _) as [s2| | |] eqn:E2; cbn [bind] in E; try discriminate. destruct (proper_reset s1 _ s2 P1 E2) as (P2 & T2 & _).
    destruct (qget s2 _) as [x| | |] eqn:E3; cbn [bind] in E; try discriminate. injection E as <-. unfold qget in E3. destruct (qh s2 (qfresh s)) as [x'|] eqn:E3'; [|discriminate]. injection E3 as ->.
    match goal with |- context [qset s2 ?q ?y] => pose proof (proper_set s2 q x y P2 E3' eq_refl eq_refl (pr_fit _ P2 q x E3')) as P3 end.
    split; [|exact T2]. eapply proper_same; [exact P3|reflexivity|reflexivity|reflexivity|]. intros i c K. exact (pr_owned _ P3 i c K).
Qed.
Lemma proper_queries : forall t l s s', proper s -> Forall (fun c : qcall => exists h ty cb, c = (h, ty, Some cb) /\ fit (told s) h ty cb) l -> queries s t l = Ok s' -> proper s'.
Proof.
  intros t l. induction l as [|[[h ty] a] l IH]; intros s s' P F E; cbn [queries] in E; [injection E as <-; exact P|].
  inversion F as [|? ? F1 F2]; subst. destruct F1 as (h' & t' & cb & K & F1). injection K as <- <- ->. destruct (mdnsd_query s t h ty (Some cb)) as [s1| | |] eqn:E1; cbn [bind] in E; try discriminate.
  destruct (proper_query _ _ _ _ _ _ P F1 E1) as [P1 T1]. eapply IH; [exact P1| |exact E]. rewrite T1. exact F2.
Qed.
Lemma proper_answer : forall t s a c s' a', proper s -> owned s c -> q_answer_re beh s a t c = Ok (s', a') -> proper s'.
Proof.
  intros t s a c s' a' P O E. unfold q_answer_re in E. cbv zeta in E. destruct (c_q c) as [q|] eqn:Eq; [|discriminate]. destruct (O q Eq) as (x & Ex & M).
  match type of E with context [set_centries s ?i ?l] => set (s0 := set_centries s i l) in * end.
  assert (P0 : proper s0) by (exact (proper_ttl s _ (fun x => Nat.eqb (c_id x) (c_id c)) _ P)).
  unfold qget in E. change (qh s0 q) with (qh s q) in E. rewrite Ex in E. cbn [bind] in E.
  set (w := c_rr (if a_ttl (c_rr c) <=? t then set_cttl c 0 else c)) in *.
  assert (W : a_name w = a_name (c_rr c) /\ a_type w = a_type (c_rr c)) by (unfold w; destruct (_ <=? t); split; reflexivity). destruct W as [W1 W2].
  destruct (beh a (q_cb x) w) as [[[a1 l] rm]| | |] eqn:Eb; cbn [bind] in E; try discriminate.
  assert (Fw : fit (told s) (a_name w) (a_type w) (q_cb x)).
  { pose proof (pr_fit _ P q x Ex) as Fx. unfold c_match in M. apply andb_true_iff in M as [M1 M2]. apply bytes_eqb_eq in M2. pose proof (Fany _ _ _ _ Fx) as Na. apply orb_true_iff in M1 as [M1|M1]; [|apply Z.eqb_eq in M1; congruence].
    apply Z.eqb_eq in M1. rewrite W1, W2, M2, <- M1. exact Fx. }
  destruct (Freg _ _ _ _ _ _ (told s) Eb Fw) as [-> F]. destruct (queries _ t l) as [s1| | |] eqn:E1; cbn [bind] in E; try discriminate. injection E as <- _.
  refine (proper_queries t l (tell s0 (q_cb x) w) s1 _ F E1). split.
  - intros p y K. exact (pr_below _ P0 p y K).
  - intros p y K. cbn [tell told]. apply Fmono. exact (pr_fit _ P0 p y K).
  - intros i y K p Kp. exact (pr_owned _ P0 i y K p Kp).
  - intros k y K. cbn [tell told] in *. apply Fmono. apply in_app_or in K as [K|[K|[]]]; [exact (pr_told _ P0 k y K)|]. injection K as <- <-. exact Fw.
Qed.
Lemma proper_expire : forall t i ids s a s' a', proper s -> expire_re beh s a t i ids = Ok (s', a') -> proper s'.
Proof.
  intros t i ids. induction ids as [|id ids IH]; intros s a s' a' P E; cbn [expire_re] in E; [injection E as <- _; exact P|].
  destruct (find_entry id (centries s i)) as [c|] eqn:Ef; [|discriminate]. destruct (a_ttl (c_rr c) <=? t); [|eapply IH; [exact P|exact E]]. cbv zeta in E.
  set (s0 := set_centries s i (drop_entry id (centries s i))) in *.
  assert (P0 : proper s0) by (apply proper_entries; [exact P|]; intros y K; apply filter_In in K as [K _]; exact (pr_owned _ P i y K)).
  assert (O : owned s0 c) by (apply find_some in Ef as [Ef _]; exact (pr_owned _ P i c Ef)).
  destruct (c_q c) as [q|].
  - destruct (q_answer_re _ _ _ _ _) as [[s1 a1]| | |] eqn:E1; cbn [bind] in E; try discriminate. eapply IH; [|exact E]. exact (proper_answer _ _ _ _ _ _ P0 O E1).
  - cbn [bind] in E. eapply IH; [exact P0|exact E].
Qed.
Lemma proper_gc : forall t is s a s' a', proper s -> gc_re beh s a t is = Ok (s', a') -> proper s'.
Proof.
  intros t is. induction is as [|i is IH]; intros s a s' a' P E; cbn [gc_re] in E; [injection E as <- _; exact P|].
  destruct (c_expire_re _ _ _ _ _) as [[s1 a1]| | |] eqn:E1; cbn [bind] in E; try discriminate. eapply IH; [eapply proper_expire; [exact P|exact E1]|exact E].
Qed.
Lemma proper_delete : forall t i r n s a s' a', proper s -> delete_re beh n s a t i r = Ok (s', a') -> proper s'.
Proof.
  intros t i r n. induction n as [|n IH]; intros s a s' a' P E; cbn [delete_re] in E; [discriminate|]. destruct (find _ _) as [c|]; [|injection E as <- _; exact P]. cbv zeta in E.
  destruct (c_expire_re _ _ _ _ _) as [[s1 a1]| | |] eqn:E1; cbn [bind] in E; try discriminate. eapply IH; [|exact E]. eapply proper_expire; [|exact E1]. exact (proper_ttl s i (fun x => Nat.eqb (c_id x) (c_id c)) 0 P).
Qed.
Lemma proper_cache : forall t cls r from s a s' a', proper s -> cache_re beh s a t cls r from = Ok (s', a') -> proper s'.
Proof.
  intros t cls r from s a s' a' P E. unfold cache_re in E. cbv zeta in E.
  assert (K : forall s1 a1, (if rr_class r =? 32768 + cls then c_expire_re beh (set_centries s (cbucket (rr_name r)) (map (fun c => if c_match (rr_name r) (rr_type r) c then set_cttl c 0 else c) (centries s (cbucket (rr_name r))))) a t (cbucket (rr_name r)) else Ok (s, a)) = Ok (s1, a1) -> proper s1).
  { intros s1 a1 E1. destruct (_ =? _); [|injection E1 as <- _; exact P]. eapply proper_expire; [|exact E1]. exact (proper_ttl s _ (c_match (rr_name r) (rr_type r)) 0 P). }
  destruct (if rr_class r =? 32768 + cls then _ else _) as [[s1 a1]| | |]; cbn [bind] in E; try discriminate. specialize (K s1 a1 eq_refl).
  destruct (rr_ttl r =? 0); [eapply proper_delete; [exact K|exact E]|]. destruct (find _ _) as [c|]; [injection E as <- _; exact (proper_ttl s1 _ (fun x => Nat.eqb (c_id x) (c_id c)) _ K)|].
  destruct (_ && _) in E; [injection E as <- _; exact K|]. destruct (cache_answer _ _ _) as [w|] eqn:Ew; [|discriminate]. apply cache_answer_is in Ew as [Nw Tw].
  destruct (q_find _ _ _) as [o| | |] eqn:Ef; cbn [bind] in E; try discriminate.
  assert (O : owned s1 (mkcached (cfresh s1) w o)).
  { intros q Kq. cbn [c_q] in Kq. subst o. apply find_query_is in Ef as (x & Ex & Nx & Tx). exists x. split; [exact Ex|]. unfold c_match. cbn [c_rr]. rewrite Nx, Tx, Nw, Tw, Z.eqb_refl. cbn [orb andb]. apply bytes_eqb_eq. reflexivity. }
  match type of E with context [mkqrys ?a1 ?a2 ?a3 ?a4 ?a5 ?a6 ?a7 ?a8 ?a9] => set (s2 := mkqrys a1 a2 a3 a4 a5 a6 a7 a8 a9) in * end.
  assert (P2 : proper s2).
  { eapply proper_same; [exact K|reflexivity|reflexivity|reflexivity|]. intros i c I. unfold centries, s2 in I. cbn [cache] in I. apply in_upd in I as [[<-|I]|I]; [exact O|exact (pr_owned _ K _ c I)|exact (pr_owned _ K _ c I)]. }
  destruct o as [q|]; [|injection E as <- _; exact P2]. eapply proper_answer; [exact P2| |exact E]. exact O.
Qed.
Lemma proper_responses : forall e from an d a did d' a', proper (Q d) -> responses_re beh d a e from did an = Ok (d', a') -> proper (Q d').
Proof.
  intros e from an. induction an as [|r an IH]; intros d a did d' a' P E; cbn [responses_re] in E; [injection E as <- _; exact P|].
  destruct (contest d e from did r) as [[[d1 did1] skip]| | |] eqn:E1; cbn [bind] in E; try discriminate. destruct (contest_keeps _ _ _ _ _ _ _ _ E1) as [K1 _]. rewrite <- K1 in P.
  destruct skip; [eapply IH; [exact P|exact E]|]. cbv zeta in E.
  assert (F : forall b : bool, Q (if b then add_received d1 r else d1) = Q d1) by (intros [|]; auto).
  destruct (cache_re _ _ _ _ _ _ _) as [[q a1]| | |] eqn:E2; cbn [bind] in E; try discriminate. rewrite F in E2. apply proper_cache in E2; [|exact P]. eapply IH; [|exact E]. exact E2.
Qed.
Lemma proper_in : forall d a e m from d' a' n qs, rinv (R d) qs -> proper (Q d) -> in_re beh d a e m from = Ok (d', a', n) -> proper (Q d').
Proof.
  intros d a e m from d' a' n qs H P E. unfold in_re in E. destruct (is_shutdown d); [injection E as <- _ _; exact P|]. cbv zeta in E. set (d0 := with_now d (e_now e)) in *.
  destruct (is_local_spec d0 e from) as (i & tm & El & I). rewrite El in E. destruct (own_addr d0 from || listed i from); [injection E as <- _ _; exact P|].
  set (d1 := into d0 (R d0) i tm (Out.received d0)) in *. destruct (h_qr (m_header m) =? 0).
  - destruct (questions_sound (m_qd m) d1 e from false (m_id m) (m_an m) qs H ltac:(discriminate)) as (s' & i' & tm' & L' & b & qs' & Cf & E' & _).
    rewrite E' in E. cbn [bind] in E. injection E as <- _ _. exact P.
  - destruct (responses_re _ _ _ _ _ _ _) as [[d2 a2]| | |] eqn:E2; cbn [bind] in E; try discriminate. injection E as <- _ _. apply proper_responses in E2; [exact E2|exact P].
Qed.
Lemma proper_loop : forall n s a t frm cls q m best ret s' a' m' best' ret', proper s -> query_loop_re beh n s a t frm cls q m best ret = Ok (s', a', m', best', ret') -> proper s'.
Proof.
  induction n as [|n IH]; intros s a t frm cls q m best ret s' a' m' best' ret' P E; cbn [query_loop_re] in E; [discriminate|]. destruct q as [i|]; [|injection E as <- _ _ _ _; exact P].
  unfold qget in E. destruct (qh s i) as [x|] eqn:Ex; cbn [bind] in E; [|discriminate]. destruct (_ || _) in E.
  { destruct (q_link s i) as [n1| | |]; cbn [bind] in E; try discriminate. eapply IH; [exact P|exact E]. }
  destruct (q_tries x =? 3).
  - destruct (c_expire_re _ _ _ _ _) as [[s1 a1]| | |] eqn:E1; cbn [bind] in E; try discriminate. apply proper_expire in E1; [|exact P].
    destruct (q_reset s1 i) as [s2| | |] eqn:E2; cbn [bind] in E; try discriminate. destruct (proper_reset _ _ _ E1 E2) as (P2 & _).
    destruct (q_link s2 i) as [n1| | |]; cbn [bind] in E; try discriminate. eapply IH; [exact P2|exact E].
  - cbv zeta in E. match type of E with context [qset s i ?y] => pose proof (proper_set s i x y P Ex eq_refl eq_refl (pr_fit _ P i x Ex)) as G end.
    destruct (q_link _ i) as [n1| | |]; cbn [bind] in E; try discriminate. eapply IH; [exact G|exact E].
Qed.
Lemma proper_out : forall d a e d' a' m n, proper (Q d) -> out_re beh d a e = Ok (d', a', m, n) -> proper (Q d').
Proof.
  intros d a e d' a' m n P E. unfold out_re in E. destruct (out_first d e) as [[[d1 m1] sent]| | |] eqn:E1; cbn [bind] in E; try discriminate. apply out_first_same in E1 as (s & ->).
  destruct sent as [[m2 ret]|]; [injection E as <- _ _ _; exact P|]. cbv zeta in E. destruct (out_query_re _ _ _ _ _ _ _) as [[[[q a1] m2] ret]| | |] eqn:E2; cbn [bind] in E; try discriminate.
  assert (P2 : proper q).
  { unfold out_query_re in E2. destruct (_ && _) in E2; [|injection E2 as <- _ _ _; exact P].
    destruct (query_ask _ _ _ _ _ _) as [[m3 best]| | |]; cbn [bind] in E2; try discriminate. destruct (query_loop_re _ _ _ _ _ _ _ _ _ _ _) as [[[[[s1 a2] m4] best2] ret2]| | |] eqn:E3; cbn [bind] in E2; try discriminate.
    injection E2 as <- _ _ _. apply proper_loop in E3; [|exact P]. eapply proper_same; [exact E3|reflexivity|reflexivity|reflexivity|]. intros i c K. exact (pr_owned _ E3 i c K). }
  destruct (_ <? _) in E; [|injection E as <- _ _ _; exact P2]. destruct (gc_re _ _ _ _ _) as [[q2 a2]| | |] eqn:E3; cbn [bind] in E; try discriminate.
  injection E as <- _ _ _. exact (proper_gc _ _ _ _ _ _ P2 E3).
Qed.

(* ---- the loop ---- *)
Variable a0 : A.
Hypothesis Ad : adding beh (fun _ => True).
Lemma proper_receive : forall l s s' ok, sane A beh (fun _ => True) a0 s -> reading l -> proper (Q (l_daemon s)) -> mq_receive beh s l = Ok (s', ok) -> proper (Q (l_daemon s')).
Proof.
  induction l as [|[e x] l IH]; intros s s' ok K Rl Th E; cbn [mq_receive] in E; [injection E as <- _; exact Th|]. destruct x as [b from|]; [|injection E as <- _; exact Th].
  destruct (zlen b =? 0); [injection E as <- _; exact Th|]. cbv zeta in E. destruct (Rl e _ (or_introl eq_refl)) as [T Bb]. cbn in Bb. assert (Rl' : reading l) by (intros e' y J; apply Rl; right; exact J).
  destruct K as [K Hb]. assert (Hb' : forall i, is_byte (mq_fill (l_buf s) b i)) by (apply mq_fill_bytes; assumption).
  destruct (message_parse _ _) as [[[m p] q]| |u|] eqn:Ep; try discriminate.
  - destruct (in_re beh _ _ e m from) as [[[d' a'] n]| | |] eqn:E1; cbn [bind] in E; try discriminate.
    assert (K' : runs beh (fun _ => True) a0 d' a') by (eapply runs_in; [exact K|exact T| |exact E1]; eapply ParseWf.message_parse_wf; [|exact Ep]; exact Hb').
    eapply IH; [|exact Rl'| |exact E]; [split; [exact K'|exact Hb']|]. cbn [l_daemon l_prog]. destruct (runs_below beh a0 Ad _ _ K) as [B (qs & H)]. eapply proper_in; [exact H|exact Th|exact E1].
  - eapply IH; [|exact Rl'| |exact E]; [split; [exact K|exact Hb']|exact Th].
Qed.
Lemma proper_send : forall l d a d' a' ps ok, proper (Q d) -> mq_send beh d a l = Ok (d', a', ps, ok) -> proper (Q d').
Proof.
  induction l as [|[e sent] l IH]; intros d a d' a' ps ok P E; cbn [mq_send] in E; [discriminate|]. destruct (out_re beh d a e) as [[[[d1 a1] m] n]| | |] eqn:E1; cbn [bind] in E; try discriminate.
  apply proper_out in E1; [|exact P]. destruct (n =? 0); [injection E as <- _ _ _; exact E1|]. destruct (e_ovf _); [discriminate|]. destruct sent; [|injection E as <- _ _ _; exact E1].
  destruct (mq_send beh d1 a1 l) as [[[[d2 a2] ps2] ok2]| | |] eqn:E2; cbn [bind] in E; try discriminate. injection E as <- _ _ _. eapply IH; [exact E1|exact E2].
Qed.
Lemma proper_turn : forall terminate wait start s e ready li lo t s' sl ps v, sane A beh (fun _ => True) a0 s -> 0 <= fst (e_now e) -> reading li ->
  proper (Q (l_daemon s)) -> turn beh terminate wait start s e ready li lo t = Ok (s', sl, ps, v) -> proper (Q (l_daemon s')).
Proof.
  intros terminate wait start s e ready li lo t s' sl ps v [K Hb] T Rl Th E. unfold turn in E. destruct (sleep_ok A beh (fun _ => True) a0 Ad Logic.I _ _ e K T) as (d & sl1 & E1 & K1). rewrite E1 in E. cbn [bind] in E.
  assert (Th1 : proper (Q d)).
  { destruct (runs_below beh a0 Ad _ _ K) as [_ (qs & H)]. destruct (mdnsd_sleep_spec (l_daemon s) e qs H) as (d2 & t2 & qs' & Es & O & _). rewrite E1 in Es. injection Es as <- _. assert (Qd : Q d = Q (l_daemon s)) by (destruct O; reflexivity).
    rewrite Qd. exact Th. }
  set (s1 := mkloop d (l_prog s) (l_buf s) (l_last s)) in E. assert (S1 : sane A beh (fun _ => True) a0 s1) by (split; assumption).
  assert (R2 : forall s2 ok, (if ready then mq_receive beh s1 li else Ok (s1, true)) = Ok (s2, ok) -> proper (Q (l_daemon s2))).
  { intros s2 ok E2. destruct ready; [|injection E2 as <- _; exact Th1]. eapply proper_receive; [exact S1|exact Rl|exact Th1|exact E2]. }
  destruct (if ready then _ else _) as [[s2 ok]| | |]; cbn [bind] in E; try discriminate. specialize (R2 _ _ eq_refl). destruct ok; cbn [negb] in E; [|injection E as <- _ _ _; exact R2].
  destruct (mq_send beh _ _ lo) as [[[[d3 a3] ps3] ok3]| | |] eqn:E3; cbn [bind] in E; try discriminate. injection E as <- _ _ _. cbn [l_daemon]. eapply proper_send; [exact R2|exact E3].
Qed.
Lemma session_proper : forall terminate wait start name type s, fit [] name type PLAIN -> session_of beh a0 terminate wait start name type s -> proper (Q (l_daemon s)).
Proof.
  intros terminate wait start name type s F K. induction K as [t family buf s T Et B E|s e ready li lo t s' sl ps K IH T Rl Tl E].
  - unfold begin in E. cbn [step] in E. cbn [bind] in E. destruct (mdnsd_query _ _ _ _ _) as [q| | |] eqn:E1; cbn [bind] in E; try discriminate. injection E as <-. cbn [l_daemon with_Q Q].
    refine (proj1 (proper_query _ _ _ _ _ _ _ _ E1)); [|exact F]. split.
    + intros p y K. discriminate K.
    + intros p y K. discriminate K.
    + intros i c K. exfalso. change (In c (nth i (repeat [] (Z.to_nat LPRIME)) [])) in K. revert K. generalize (Z.to_nat LPRIME). intros n. revert i. induction n as [|n IH]; intros [|i] K; cbn [repeat nth] in K; try contradiction. exact (IH i K).
    + intros k x [].
  - eapply proper_turn; [|exact T|exact Rl|exact IH|exact E]. eapply session_sane; [exact Ad|exact Logic.I|]. eapply session_of_session. exact K.
Qed.
End Owners.

(* The same of registered queries *)
Lemma ask_only : forall A (beh : behaviour A) a0 (Ad : adding beh (fun _ => True)) (fit : list call -> list Z -> Z -> nat -> Prop), (forall T U n ty k, fit T n ty k -> fit (T ++ U) n ty k) -> (forall T n ty k, fit T n ty k -> ty <> QTYPE_ANY) ->
  (forall a k x a' l rm T, beh a k x = Ok (a', l, rm) -> fit T (a_name x) (a_type x) k -> rm = false /\ Forall (fun c : qcall => exists h t cb, c = (h, t, Some cb) /\ fit (T ++ [(k, x)]) h t cb) l) ->
  forall terminate wait start name type s, fit [] name type PLAIN -> session_of beh a0 terminate wait start name type s ->
  (forall x, registered (l_daemon s) x -> fit (told (Q (l_daemon s))) (q_nm x) (q_ty x) (q_cb x)) /\ (forall k x, In (k, x) (told (Q (l_daemon s))) -> fit (told (Q (l_daemon s))) (a_name x) (a_type x) k).
Proof.
  intros A beh a0 Ad fit M N R terminate wait start name type s F K. pose proof (session_proper beh fit M N R a0 Ad terminate wait start name type s F K) as P. split; [|exact (pr_told _ _ P)]. intros x (q & _ & E). exact (pr_fit _ _ P q x E).
Qed.

(* mquery -D: queries for the instances of a service type have SPEC *)
Definition dev_fit (n0 : list Z) (T : list call) (n : list Z) (ty : Z) (k : nat) : Prop :=
  ty <> QTYPE_ANY /\ (ty = QTYPE_PTR -> (n <> n0 -> k = SPEC) /\ (n = n0 -> pointed_to n0 T \/ k = PLAIN)).
Lemma dev_fit_mono : forall n0 T U n ty k, dev_fit n0 T n ty k -> dev_fit n0 (T ++ U) n ty k.
Proof.
  intros n0 T U n ty k [F1 F2]. split; [exact F1|]. intros E. destruct (F2 E) as [G1 G2]. split; [exact G1|]. intros E'. destruct (G2 E') as [(c & I & K)|K]; [left|right; exact K]. exists c. split; [apply in_or_app; left; exact I|exact K].
Qed.
Lemma dev_fit_reg : forall n0 ntop a k x a' l rm T, ans_dev ntop a k x = Ok (a', l, rm) -> rm = false /\ Forall (fun c : qcall => exists h t cb, c = (h, t, Some cb) /\ dev_fit n0 (T ++ [(k, x)]) h t cb) l.
Proof.
  intros n0 ntop a k x a' l rm T E. destruct (ans_dev_reg _ _ _ _ _ _ _ E) as [-> _]. split; [reflexivity|].
  assert (Other : forall h t, t <> QTYPE_PTR -> t <> QTYPE_ANY -> exists h' t' cb, (h, t, Some PLAIN) = (h', t', Some cb) /\ dev_fit n0 (T ++ [(k, x)]) h' t' cb).
  { intros h t N1 N2. exists h, t, PLAIN. split; [reflexivity|]. split; [exact N2|]. intros K. contradiction. }
  assert (Ad : forall s n t rm, add_device s n t = Ok (a', l, rm) -> l = []).
  { intros s n t rm K. unfold add_device in K. destruct (find_or_create_device _ _) as [l1 j]. destruct (device_add_addr _ _) as [v| | |]; cbn [bind] in K; try discriminate. injection K as _ <- _. reflexivity. }
  unfold ans_dev in E. destruct (a_ttl x =? 0); [injection E as _ <-; constructor|].
  destruct (a_type x =? QTYPE_PTR) eqn:Ty.
  { destruct (a_rdname x) as [[|c n]|] eqn:Er; try (injection E as _ <-; constructor). destruct (Nat.eqb k PLAIN); injection E as _ <-.
    - constructor; [|constructor]. exists (c :: n), QTYPE_PTR, SPEC. split; [reflexivity|]. split; [discriminate|]. intros _. split; [reflexivity|]. intros <-. left. exists (k, x). split; [apply in_or_app; right; left; reflexivity|]. split; [cbn [snd]; lia|exact Er].
    - constructor; [apply Other; discriminate|]. constructor; [apply Other; discriminate|constructor]. }
  destruct (a_type x =? QTYPE_SRV).
  { destruct (a_rdname x) as [[|c n]|]; try (injection E as _ <-; constructor). destruct (find_or_create_instance _ _) as [l1 j]. cbv zeta in E. destruct (i_host _); injection E as _ <-; [|constructor].
    constructor; [apply Other; discriminate|]. constructor; [apply Other; discriminate|constructor]. }
  destruct (a_type x =? QTYPE_TXT).
  { destruct (a_rdata x) as [[|c n]|]; try (injection E as _ <-; constructor). destruct (find_or_create_instance _ _) as [l1 j]. cbv zeta in E. destruct (SdTxt.txt2sd _ _) as [t| | |]; cbn [bind] in E; try discriminate. injection E as _ <-. constructor. }
  destruct (a_type x =? QTYPE_A); [rewrite (Ad _ _ _ _ E); constructor|]. destruct (a_type x =? QTYPE_AAAA); [rewrite (Ad _ _ _ _ E); constructor|]. injection E as _ <-. constructor.
Qed.

Lemma session_types : forall ntop terminate wait start s, (forall f a, zlen (ntop f a) < INET6_ADDRSTRLEN) -> session_of (ans_dev ntop) no_tables terminate wait start DISCO_NAME QTYPE_PTR s ->
  let T := told (Q (l_daemon s)) in
  forall c n, In c T -> there c -> a_type (snd c) = QTYPE_PTR -> a_rdname (snd c) = Some n -> n <> [] ->
    (a_name (snd c) <> DISCO_NAME -> looked_up (l_daemon s) n QTYPE_SRV /\ looked_up (l_daemon s) n QTYPE_TXT) /\
    (a_name (snd c) = DISCO_NAME -> ~ pointed_to DISCO_NAME T -> looked_up (l_daemon s) n QTYPE_PTR).
Proof.
  intros ntop terminate wait start s Hn K T [k x] n I Th Ty Rd Nn. pose proof (session_of_session _ _ _ _ _ _ _ _ _ K) as K'. destruct (session_lookups ntop Hn terminate wait start s K') as [L _]. specialize (L _ n I Th Ty Rd Nn).
  assert (P : proper (dev_fit DISCO_NAME) (Q (l_daemon s))).
  { eapply (session_proper (ans_dev ntop) (dev_fit DISCO_NAME)); [intros; apply dev_fit_mono; assumption|intros T' n' ty k' F; apply F|intros a k' x' a' l rm T' B _; eapply dev_fit_reg; exact B|apply ans_dev_total| |exact K].
    split; [discriminate|]. intros _. split; [intros N; contradiction N; reflexivity|intros _; right; reflexivity]. }
  destruct (pr_told _ _ P k x I) as [_ F]. cbn [fst snd] in *. destruct (F Ty) as [F1 F2]. split.
  - intros N. rewrite (F1 N) in L. exact L.
  - intros N Np. destruct (F2 N) as [Q|Q]; [contradiction|]. rewrite Q in L. exact L.
Qed.

(* mquery: names under the one given are asked for, and no others *)
Definition list_fit (n0 : list Z) (T : list call) (n : list Z) (ty : Z) (k : nat) : Prop :=
  ty = QTYPE_PTR /\ (k = PLAIN -> n = n0) /\ (k <> PLAIN -> listed_under n0 n T).
Lemma listed_under_mono : forall n0 n T U, listed_under n0 n T -> listed_under n0 n (T ++ U).
Proof. intros n0 n T U (c & I & K). exists c. split; [apply in_or_app; left; exact I|exact K]. Qed.
Lemma session_lists : forall ntop terminate wait start name s, session_of (ans ntop false) [] terminate wait start name QTYPE_PTR s ->
  let T := told (Q (l_daemon s)) in
  (forall x, registered (l_daemon s) x -> q_ty x = QTYPE_PTR /\ (q_nm x = name \/ listed_under name (q_nm x) T)) /\
  (forall n, listed_under name n T -> ~ listed_under name name T -> looked_up (l_daemon s) n QTYPE_PTR).
Proof.
  intros ntop terminate wait start name s K T. pose proof (session_of_session _ _ _ _ _ _ _ _ _ K) as K'.
  assert (P : (forall x, registered (l_daemon s) x -> list_fit name T (q_nm x) (q_ty x) (q_cb x)) /\ (forall k x, In (k, x) T -> list_fit name T (a_name x) (a_type x) k)).
  { apply (ask_only _ (ans ntop false) [] (ans_total ntop false) (list_fit name)) with (terminate := terminate) (wait := wait) (start := start) (name := name) (type := QTYPE_PTR); [| | | |exact K].
    - intros T' U n ty k (F1 & F2 & F3). split; [exact F1|]. split; [exact F2|]. intros N. apply listed_under_mono. exact (F3 N).
    - intros T' n ty k (F1 & _) E. rewrite F1 in E. discriminate E.
    - intros a k x a' l rm T' E (F1 & F2 & F3). unfold ans in E. cbn [negb] in E. rewrite F1 in E. change (QTYPE_PTR =? QTYPE_PTR) with true in E. cbv iota in E. cbn [negb] in E. destruct (a_rdname x) as [n|] eqn:Er; [|discriminate]. injection E as _ <- <-. split; [reflexivity|].
      destruct (Nat.eqb_spec k PLAIN) as [->|Nk]; [|constructor]. constructor; [|constructor]. exists n, QTYPE_PTR, SPEC. split; [reflexivity|]. split; [reflexivity|]. split; [discriminate|]. intros _.
      exists (PLAIN, x). split; [apply in_or_app; right; left; reflexivity|]. cbn [snd]. split; [exact F1|]. split; [exact (F2 eq_refl)|exact Er].
    - split; [reflexivity|]. split; [reflexivity|]. intros N. contradiction N. reflexivity. }
  destruct P as [P1 P2]. split.
  - intros x R. destruct (P1 x R) as (F1 & F2 & F3). split; [exact F1|]. destruct (Nat.eq_dec (q_cb x) PLAIN) as [E|E]; [left; exact (F2 E)|right; exact (F3 E)].
  - intros n ([k x] & I & Ty & Nm & Rd) Nh. cbn [snd] in *. eapply (session_browses ntop _ _ _ _ K' (k, x)); [exact I| |exact Ty|exact Rd]. cbn [fst]. destruct (Nat.eq_dec k PLAIN) as [E|E]; [exact E|]. destruct (P2 k x I) as (_ & _ & F3). rewrite Nm in F3. contradiction (Nh (F3 E)).
Qed.

(* mquery -D: only what was found is asked for *)
Definition found_fit (n0 : list Z) (T : list call) (n : list Z) (ty : Z) (k : nat) : Prop := (n = n0 /\ ty = QTYPE_PTR) \/ followed n ty T.
Lemma session_follows : forall ntop terminate wait start s, session_of (ans_dev ntop) no_tables terminate wait start DISCO_NAME QTYPE_PTR s ->
  forall x, registered (l_daemon s) x -> (q_nm x = DISCO_NAME /\ q_ty x = QTYPE_PTR) \/ followed (q_nm x) (q_ty x) (told (Q (l_daemon s))).
Proof.
  intros ntop terminate wait start s K. apply (ask_only _ (ans_dev ntop) no_tables (ans_dev_total ntop) (found_fit DISCO_NAME)) with (terminate := terminate) (wait := wait) (start := start) (name := DISCO_NAME) (type := QTYPE_PTR); [| | | |exact K].
  - intros T U n ty k [F|(c & I & F)]; [left; exact F|right; exists c; split; [apply in_or_app; left; exact I|exact F]].
  - intros T n ty k [(_ & ->)|(c & I & _ & _ & [(_ & [->|[->| ->]])|(_ & [->| ->])])]; discriminate.
  - intros a k x a' l rm T E _. destruct (ans_dev_reg _ _ _ _ _ _ _ E) as [-> _]. split; [reflexivity|].
    assert (Ad : forall s n t rm, add_device s n t = Ok (a', l, rm) -> l = []).
    { intros s' n t rm J. unfold add_device in J. destruct (find_or_create_device _ _) as [l1 j]. destruct (device_add_addr _ _) as [v| | |]; cbn [bind] in J; try discriminate. injection J as _ <- _. reflexivity. }
    assert (Last : forall n ty cb, a_ttl x <> 0 -> a_rdname x = Some n -> (a_type x = QTYPE_PTR /\ (ty = QTYPE_PTR \/ ty = QTYPE_SRV \/ ty = QTYPE_TXT)) \/ (a_type x = QTYPE_SRV /\ (ty = QTYPE_A \/ ty = QTYPE_AAAA)) ->
      exists h t cb', (n, ty, Some cb) = (h, t, Some cb') /\ found_fit DISCO_NAME (T ++ [(k, x)]) h t cb').
    { intros n ty cb Th Er C. exists n, ty, cb. split; [reflexivity|]. right. exists (k, x). split; [apply in_or_app; right; left; reflexivity|]. split; [exact Th|]. split; [exact Er|exact C]. }
    unfold ans_dev in E. destruct (Z.eqb_spec (a_ttl x) 0) as [Z|Z]; [injection E as _ <-; constructor|].
    destruct (Z.eqb_spec (a_type x) QTYPE_PTR) as [Ty|Ty].
    { destruct (a_rdname x) as [[|c n]|] eqn:Er; try (injection E as _ <-; constructor). destruct (Nat.eqb k PLAIN); injection E as _ <-; repeat (constructor; [apply Last; auto|]); constructor. }
    destruct (Z.eqb_spec (a_type x) QTYPE_SRV) as [Ts|Ts].
    { destruct (a_rdname x) as [[|c n]|] eqn:Er; try (injection E as _ <-; constructor). destruct (find_or_create_instance _ _) as [l1 j]. cbv zeta in E. destruct (i_host _); injection E as _ <-; [|constructor].
      repeat (constructor; [apply Last; auto|]); constructor. }
    destruct (a_type x =? QTYPE_TXT).
    { destruct (a_rdata x) as [[|c n]|]; try (injection E as _ <-; constructor). destruct (find_or_create_instance _ _) as [l1 j]. cbv zeta in E. destruct (SdTxt.txt2sd _ _) as [t| | |]; cbn [bind] in E; try discriminate. injection E as _ <-. constructor. }
    destruct (a_type x =? QTYPE_A); [rewrite (Ad _ _ _ _ E); constructor|]. destruct (a_type x =? QTYPE_AAAA); [rewrite (Ad _ _ _ _ E); constructor|]. injection E as _ <-. constructor.
  - left. split; reflexivity.
Qed.

(* The query given stays *)
Section Kept.
Context {A : Type} (beh : behaviour A).
Hypothesis Reg : forall a k x a' l rm, beh a k x = Ok (a', l, rm) -> rm = false /\ Forall registering l.
Variable a0 : A.
Hypothesis Ad : adding beh (fun _ => True).
Variables (name : list Z) (type : Z).
Lemma kept_receive : forall l s s' ok, sane A beh (fun _ => True) a0 s -> reading l -> has (Q (l_daemon s)) name type -> mq_receive beh s l = Ok (s', ok) -> has (Q (l_daemon s')) name type.
Proof.
  induction l as [|[e x] l IH]; intros s s' ok K Rl Th E; cbn [mq_receive] in E; [injection E as <- _; exact Th|]. destruct x as [b from|]; [|injection E as <- _; exact Th].
  destruct (zlen b =? 0); [injection E as <- _; exact Th|]. cbv zeta in E. destruct (Rl e _ (or_introl eq_refl)) as [T Bb]. cbn in Bb. assert (Rl' : reading l) by (intros e' y J; apply Rl; right; exact J).
  destruct K as [K Hb]. assert (Hb' : forall i, is_byte (mq_fill (l_buf s) b i)) by (apply mq_fill_bytes; assumption).
  destruct (message_parse _ _) as [[[m p] q]| |u|] eqn:Ep; try discriminate.
  - destruct (in_re beh _ _ e m from) as [[[d' a'] n]| | |] eqn:E1; cbn [bind] in E; try discriminate.
    assert (K' : runs beh (fun _ => True) a0 d' a') by (eapply runs_in; [exact K|exact T| |exact E1]; eapply ParseWf.message_parse_wf; [|exact Ep]; exact Hb').
    eapply IH; [|exact Rl'| |exact E]; [split; [exact K'|exact Hb']|]. cbn [l_daemon l_prog]. destruct (runs_below beh a0 Ad _ _ K) as [B (qs & H)]. destruct (looks_in beh Reg _ _ _ _ _ _ _ _ qs H B E1) as [G _]. apply G. exact Th.
  - eapply IH; [|exact Rl'| |exact E]; [split; [exact K|exact Hb']|exact Th].
Qed.
Lemma kept_send : forall l d a d' a' ps ok, runs beh (fun _ => True) a0 d a -> timed l -> has (Q d) name type -> mq_send beh d a l = Ok (d', a', ps, ok) -> has (Q d') name type.
Proof.
  induction l as [|[e sent] l IH]; intros d a d' a' ps ok K Tl Th E; cbn [mq_send] in E; [discriminate|]. destruct (out_re beh d a e) as [[[[d1 a1] m] n]| | |] eqn:E1; cbn [bind] in E; try discriminate.
  assert (K' : runs beh (fun _ => True) a0 d1 a1) by (eapply runs_out; [exact K|exact (Tl e sent (or_introl eq_refl))|left; exact Ad|exact E1]).
  assert (Th' : has (Q d1) name type) by (destruct (looks_out beh Reg _ _ _ _ _ _ _ (proj1 (runs_below beh a0 Ad _ _ K)) E1) as [G _]; apply G; exact Th).
  destruct (n =? 0); [injection E as <- <- _ _; exact Th'|]. destruct (e_ovf _); [discriminate|]. destruct sent; [|injection E as <- <- _ _; exact Th'].
  destruct (mq_send beh d1 a1 l) as [[[[d2 a2] ps2] ok2]| | |] eqn:E2; cbn [bind] in E; try discriminate. injection E as <- <- _ _. eapply IH; [exact K'| |exact Th'|exact E2]. intros e' b J. apply (Tl e' b). right. exact J.
Qed.
Lemma kept_turn : forall terminate wait start s e ready li lo t s' sl ps v, sane A beh (fun _ => True) a0 s -> 0 <= fst (e_now e) -> reading li -> timed lo ->
  has (Q (l_daemon s)) name type -> turn beh terminate wait start s e ready li lo t = Ok (s', sl, ps, v) -> has (Q (l_daemon s')) name type.
Proof.
  intros terminate wait start s e ready li lo t s' sl ps v [K Hb] T Rl Tl Th E. unfold turn in E. destruct (sleep_ok A beh (fun _ => True) a0 Ad Logic.I _ _ e K T) as (d & sl1 & E1 & K1). rewrite E1 in E. cbn [bind] in E.
  assert (Th1 : has (Q d) name type).
  { destruct (runs_below beh a0 Ad _ _ K) as [_ (qs & H)]. destruct (mdnsd_sleep_spec (l_daemon s) e qs H) as (d2 & t2 & qs' & Es & O & _). rewrite E1 in Es. injection Es as <- _. assert (Qd : Q d = Q (l_daemon s)) by (destruct O; reflexivity).
    rewrite Qd. exact Th. }
  set (s1 := mkloop d (l_prog s) (l_buf s) (l_last s)) in E. assert (S1 : sane A beh (fun _ => True) a0 s1) by (split; assumption).
  pose proof (receive_ok A beh (fun _ => True) a0 Ad Logic.I li s1 S1 Rl) as Rc.
  assert (R2 : forall s2 ok, (if ready then mq_receive beh s1 li else Ok (s1, true)) = Ok (s2, ok) -> has (Q (l_daemon s2)) name type /\ sane A beh (fun _ => True) a0 s2).
  { intros s2 ok E2. destruct ready; [|injection E2 as <- _; split; [exact Th1|exact S1]]. rewrite E2 in Rc. split; [|exact Rc]. eapply kept_receive; [exact S1|exact Rl|exact Th1|exact E2]. }
  destruct (if ready then _ else _) as [[s2 ok]| | |]; cbn [bind] in E; try discriminate. destruct (R2 _ _ eq_refl) as [Th2 [K2 B2]]. destruct ok; cbn [negb] in E; [|injection E as <- _ _ _; exact Th2].
  destruct (mq_send beh _ _ lo) as [[[[d3 a3] ps3] ok3]| | |] eqn:E3; cbn [bind] in E; try discriminate. injection E as <- _ _ _. cbn [l_daemon l_prog]. eapply kept_send; [exact K2|exact Tl|exact Th2|exact E3].
Qed.
Lemma session_kept : forall terminate wait start s, session_of beh a0 terminate wait start name type s -> looked_up (l_daemon s) name type.
Proof.
  intros terminate wait start s K. destruct (session_sane A beh (fun _ => True) a0 Ad Logic.I _ _ _ _ (session_of_session _ _ _ _ _ _ _ _ _ K)) as [Rn _]. eapply (has_registered beh a0 Ad); [exact Rn|]. clear Rn.
  induction K as [t family buf s T Et B E|s e ready li lo t s' sl ps K IH T Rl Tl E].
  - unfold begin in E. cbn [step] in E. cbn [bind] in E. destruct (mdnsd_query _ _ _ _ _) as [q| | |] eqn:E1; cbn [bind] in E; try discriminate. injection E as <-. cbn [l_daemon with_Q Q].
    refine (proj2 (gains_query _ _ _ _ _ _ _ E1)). intros p y J. discriminate J.
  - eapply kept_turn; [|exact T|exact Rl|exact Tl|exact IH|exact E]. eapply session_sane; [exact Ad|exact Logic.I|]. eapply session_of_session. exact K.
Qed.
End Kept.
Lemma dev_kept : forall ntop terminate wait start s, session_of (ans_dev ntop) no_tables terminate wait start DISCO_NAME QTYPE_PTR s -> looked_up (l_daemon s) DISCO_NAME QTYPE_PTR.
Proof. intros ntop terminate wait start s. apply session_kept; [apply ans_dev_reg|apply ans_dev_total]. Qed.
Lemma ans_kept : forall ntop simple terminate wait start name type s, session_of (ans ntop simple) [] terminate wait start name type s -> looked_up (l_daemon s) name type.
Proof. intros ntop simple terminate wait start name type s. apply session_kept; [apply ans_reg|apply ans_total]. Qed.
