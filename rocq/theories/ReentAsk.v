(* A query that is registered is asked. *)
From Verif Require Import Base Lemmas Hash HashProofs XhtProofs Wire Rec Qry Out In Api Reent SpecDaemon SpecCache SpecReent RecInv RecSafe RecOps OutSafe QryInv QryOps CacheOps QryReg QryLoop InSafe InLoop InResp OutSpec DaemonInv FactsSleep ReentFacts ReentSafe ReentRuns.

Definition alike (x y : query) : Prop := q_nm y = q_nm x /\ q_ty y = q_ty x /\ q_next y = q_next x /\ q_tries y = q_tries x.

(* What calls of mdnsd_query at t do *)
Record moves (t : Z) (s s' : qrys) : Prop := mkmoves {
  mo_old : forall q y, qh s' q = Some y -> (exists x, qh s q = Some x /\ alike x y) \/ (q_tries y = 0 /\ q_next y = t /\ checkq s' = t);
  mo_check : checkq s' = checkq s \/ checkq s' = t
}.
Lemma moves_same : forall t s s', qh s' = qh s -> checkq s' = checkq s -> moves t s s'.
Proof. intros t s s' E C. split; [|auto]. intros q y K. left. exists y. rewrite <- E. repeat split; auto. Qed.
Lemma moves_refl : forall t s, moves t s s.
Proof. intros t s. apply moves_same; reflexivity. Qed.
Lemma moves_trans : forall t s s1 s2, moves t s s1 -> moves t s1 s2 -> moves t s s2.
Proof.
  intros t s s1 s2 [A1 A2] [B1 B2]. split.
  - intros q z Ez. destruct (B1 q z Ez) as [(y & Ey & K)|N]; [|auto]. destruct (A1 q y Ey) as [(x & Ex & L)|(N1 & N2 & N3)].
    + left. exists x. split; [exact Ex|]. destruct K as (K1 & K2 & K3 & K4), L as (L1 & L2 & L3 & L4). repeat split; congruence.
    + right. destruct K as (K1 & K2 & K3 & K4). split; [congruence|]. split; [congruence|]. destruct B2 as [B2|B2]; congruence.
  - destruct B2 as [B2|B2]; [|auto]. destruct A2; [left|right]; congruence.
Qed.

Lemma moves_done : forall t s q s', q_done s q = Ok s' -> moves t s s'.
Proof.
  intros t s q s' E. unfold q_done in E. destruct (qget s q) as [x| | |]; cbn [bind] in E; try discriminate. cbv zeta in E.
  destruct (_ || _) in E; [discriminate|]. injection E as <-. split; [|left; reflexivity]. intros p y K. cbn [qh] in K. destruct (Nat.eqb p q); [discriminate|].
  left. exists y. split; [exact K|]. repeat split.
Qed.
Lemma moves_query : forall t s h ty a s', mdnsd_query s t h ty a = Ok s' -> moves t s s'.
Proof.
  intros t s h ty a s' E. unfold mdnsd_query in E. destruct (q_find s h ty) as [o| | |]; cbn [bind] in E; try discriminate.
  destruct o as [q|], a as [cb|].
  - destruct (qget s q) as [x| | |] eqn:Eq; cbn [bind] in E; try discriminate. injection E as <-. split; [|left; reflexivity]. intros p y K. cbn [qset set_qh qh] in K.
    destruct (Nat.eqb_spec p q) as [->|D]; [|left; exists y; split; [exact K|repeat split]]. injection K as <-. left. exists x. split; [|repeat split].
    unfold qget in Eq. destruct (qh s q); [congruence|discriminate].
  - eapply moves_done. exact E.
  - cbv zeta in E. destruct (q_reset _ _) as [s2| | |] eqn:E2; cbn [bind] in E; try discriminate. destruct (qget s2 (qfresh s)) as [y| | |] eqn:E3; cbn [bind] in E; try discriminate.
    injection E as <-. unfold q_reset in E2. unfold qget at 1 in E2. cbn [qh] in E2. rewrite Nat.eqb_refl in E2. cbn [bind] in E2. cbv zeta in E2.
    split; [|right; reflexivity]. intros p z K. cbn [set_checkq qset set_qh qh checkq] in K.
    destruct (Nat.eqb_spec p (qfresh s)) as [->|D].
    + right. injection K as <-. cbn [set_qnext q_tries q_next]. split; [|split; reflexivity]. unfold qget in E3. destruct (qh s2 (qfresh s)) as [y'|] eqn:E4; [|discriminate]. injection E3 as <-.
      destruct (_ && _) in E2; injection E2 as <-; cbn [set_checkq qset set_qh qh] in E4; rewrite Nat.eqb_refl in E4; injection E4 as <-; reflexivity.
    + left. exists z. split; [|repeat split]. destruct (_ && _) in E2; injection E2 as <-; cbn [set_checkq qset set_qh qh] in K; (destruct (Nat.eqb_spec p (qfresh s)); [contradiction|exact K]).
  - injection E as <-. apply moves_refl.
Qed.
Lemma moves_queries : forall t l s s', queries s t l = Ok s' -> moves t s s'.
Proof.
  intros t l. induction l as [|[[h ty] a] l IH]; intros s s' E; cbn [queries] in E; [injection E as <-; apply moves_refl|].
  destruct (mdnsd_query s t h ty a) as [s1| | |] eqn:E1; cbn [bind] in E; try discriminate. eapply moves_trans; [eapply moves_query; exact E1|apply IH; exact E].
Qed.

Section Moves.
Context {A : Type} (beh : behaviour A).

Lemma moves_answer : forall t s a c s' a', q_answer_re beh s a t c = Ok (s', a') -> moves t s s'.
Proof.
  intros t s a c s' a' E. unfold q_answer_re in E. cbv zeta in E. destruct (c_q c) as [q|]; [|discriminate].
  destruct (qget _ q) as [x| | |]; cbn [bind] in E; try discriminate. destruct (beh _ _ _) as [[[a1 l] rm]| | |]; cbn [bind] in E; try discriminate.
  destruct (queries _ t l) as [s1| | |] eqn:E1; cbn [bind] in E; try discriminate. apply moves_queries in E1.
  eapply moves_trans; [eapply moves_trans; [|exact E1]; apply moves_same; reflexivity|].
  destruct rm; [|injection E as <- _; apply moves_refl]. destruct (match find_entry _ _ with Some y => _ | None => _ end) as [q1|]; [|discriminate].
  destruct (q_done s1 q1) as [s2| | |] eqn:E2; cbn [bind] in E; try discriminate. injection E as <- _. eapply moves_done. exact E2.
Qed.
Lemma moves_expire : forall t i ids s a s' a', expire_re beh s a t i ids = Ok (s', a') -> moves t s s'.
Proof.
  intros t i ids. induction ids as [|id ids IH]; intros s a s' a' E; cbn [expire_re] in E; [injection E as <- _; apply moves_refl|].
  destruct (find_entry id (centries s i)) as [c|]; [|discriminate]. destruct (a_ttl (c_rr c) <=? t); [|eapply IH; exact E]. cbv zeta in E.
  destruct (c_q c) as [q|].
  - destruct (q_answer_re _ _ _ _ _) as [[s1 a1]| | |] eqn:E1; cbn [bind] in E; try discriminate. apply moves_answer in E1.
    eapply moves_trans; [|eapply IH; exact E]. eapply moves_trans; [|exact E1]. apply moves_same; reflexivity.
  - cbn [bind] in E. eapply moves_trans; [|eapply IH; exact E]. apply moves_same; reflexivity.
Qed.
Lemma moves_c_expire : forall t i s a s' a', c_expire_re beh s a t i = Ok (s', a') -> moves t s s'.
Proof. intros t i s a s' a'. apply moves_expire. Qed.
Lemma moves_gc : forall t is s a s' a', gc_re beh s a t is = Ok (s', a') -> moves t s s'.
Proof.
  intros t is. induction is as [|i is IH]; intros s a s' a' E; cbn [gc_re] in E; [injection E as <- _; apply moves_refl|].
  destruct (c_expire_re _ _ _ _ _) as [[s1 a1]| | |] eqn:E1; cbn [bind] in E; try discriminate. eapply moves_trans; [eapply moves_c_expire; exact E1|eapply IH; exact E].
Qed.
Lemma moves_delete : forall t i r n s a s' a', delete_re beh n s a t i r = Ok (s', a') -> moves t s s'.
Proof.
  intros t i r n. induction n as [|n IH]; intros s a s' a' E; cbn [delete_re] in E; [discriminate|]. destruct (find _ _) as [c|]; [|injection E as <- _; apply moves_refl]. cbv zeta in E.
  destruct (c_expire_re _ _ _ _ _) as [[s1 a1]| | |] eqn:E1; cbn [bind] in E; try discriminate. apply moves_c_expire in E1. eapply moves_trans; [|eapply IH; exact E].
  eapply moves_trans; [|exact E1]. apply moves_same; reflexivity.
Qed.
Lemma moves_cache : forall t cls r from s a s' a', cache_re beh s a t cls r from = Ok (s', a') -> moves t s s'.
Proof.
  intros t cls r from s a s' a' E. unfold cache_re in E. cbv zeta in E.
  assert (K : forall s1 a1, (if rr_class r =? 32768 + cls then c_expire_re beh (set_centries s (cbucket (rr_name r)) (map (fun c => if c_match (rr_name r) (rr_type r) c then set_cttl c 0 else c) (centries s (cbucket (rr_name r))))) a t (cbucket (rr_name r)) else Ok (s, a)) = Ok (s1, a1) -> moves t s s1).
  { intros s1 a1 E1. destruct (_ =? _); [|injection E1 as <- _; apply moves_refl]. apply moves_c_expire in E1. eapply moves_trans; [|exact E1]. apply moves_same; reflexivity. }
  destruct (if rr_class r =? 32768 + cls then _ else _) as [[s1 a1]| | |]; cbn [bind] in E; try discriminate. specialize (K s1 a1 eq_refl). eapply moves_trans; [exact K|]. clear K.
  destruct (rr_ttl r =? 0); [eapply moves_delete; exact E|]. destruct (find _ _) as [c|]; [injection E as <- _; apply moves_same; reflexivity|].
  destruct (_ && _) in E; [injection E as <- _; apply moves_refl|]. destruct (cache_answer _ _ _) as [w|]; [|discriminate].
  destruct (q_find _ _ _) as [o| | |]; cbn [bind] in E; try discriminate. destruct o as [q|].
  - apply moves_answer in E. eapply moves_trans; [|exact E]. apply moves_same; reflexivity.
  - injection E as <- _. apply moves_same; reflexivity.
Qed.

Lemma contest_keeps : forall d e from did r d' did' skip, contest d e from did r = Ok (d', did', skip) -> Q d' = Q d /\ now d' = now d.
Proof.
  intros d e from did r d' did' skip E. unfold contest in E. destruct (r_next _ _ _ _) as [o| | |]; cbn [bind] in E; try discriminate. destruct o as [x|]; [|injection E as <- _ _; auto].
  destruct (hget _ x) as [X| | |]; cbn [bind] in E; try discriminate. destruct (_ && _) in E; [|injection E as <- _ _; auto].
  assert (K : Q (fst (recheck d e from did)) = Q d /\ now (fst (recheck d e from did)) = now d).
  { assert (F : forall z b, Q (refresh z e b) = Q z /\ now (refresh z e b) = now z) by (intros z b; unfold refresh; repeat match goal with |- context [if ?b then _ else _] => destruct b | |- context [match ?p with Some _ => _ | None => _ end] => destruct p end; split; reflexivity).
    assert (L : forall z, Q (fst (is_local z e from)) = Q z /\ now (fst (is_local z e from)) = now z).
    { intros z. unfold is_local. destruct (family from =? AF_INET6); [destruct (bytes_eqb _ (d_addr6 z))|destruct (bytes_eqb _ (d_addr z))]; cbn [fst]; auto. }
    unfold recheck. destruct did; [apply L|]. destruct (L (refresh d e true)) as [L1 L2]. destruct (F d true). split; congruence. }
  destruct (recheck d e from did) as [d2 l]. cbn [fst] in K. destruct l; [injection E as <- _ _; exact K|].
  destruct (r_conflict _ _ _) as [s| | |]; cbn [bind] in E; try discriminate. injection E as <- _ _. exact K.
Qed.

Lemma moves_responses : forall e from an d a did d' a', responses_re beh d a e from did an = Ok (d', a') -> moves (fst (now d)) (Q d) (Q d') /\ now d' = now d.
Proof.
  intros e from an. induction an as [|r an IH]; intros d a did d' a' E; cbn [responses_re] in E; [injection E as <- _; split; [apply moves_refl|reflexivity]|].
  destruct (contest d e from did r) as [[[d1 did1] skip]| | |] eqn:E1; cbn [bind] in E; try discriminate. destruct (contest_keeps _ _ _ _ _ _ _ _ E1) as [K1 K2].
  destruct skip; [destruct (IH _ _ _ _ _ E) as [M1 M2]; rewrite K1, K2 in *; auto|]. cbv zeta in E.
  assert (F : forall b : bool, Q (if b then add_received d1 r else d1) = Q d1 /\ now (if b then add_received d1 r else d1) = now d1) by (intros [|]; auto). destruct (F (has_recv d1)) as [F1 F2].
  destruct (cache_re _ _ _ _ _ _ _) as [[q a1]| | |] eqn:E2; cbn [bind] in E; try discriminate. apply moves_cache in E2. rewrite F1, F2, K1, K2 in E2.
  destruct (IH _ _ _ _ _ E) as [M1 M2]. cbn [with_Q Q now] in M1, M2. rewrite F2, K2 in M1, M2. split; [eapply moves_trans; [exact E2|exact M1]|exact M2].
Qed.
Lemma moves_in : forall d a e m from d' a' n qs, rinv (R d) qs -> in_re beh d a e m from = Ok (d', a', n) ->
  (d' = d /\ is_shutdown d = true) \/ (moves (fst (e_now e)) (Q d) (Q d') /\ now d' = e_now e).
Proof.
  intros d a e m from d' a' n qs H E. unfold in_re in E. destruct (is_shutdown d); [left; injection E as <- _ _; auto|right]. cbv zeta in E. set (d0 := with_now d (e_now e)) in *.
  destruct (is_local_spec d0 e from) as (i & tm & El & I). rewrite El in E. destruct (own_addr d0 from || listed i from); [injection E as <- _ _; split; [apply moves_refl|reflexivity]|].
  set (d1 := into d0 (R d0) i tm (received d0)) in *. destruct (h_qr (m_header m) =? 0).
  - destruct (questions_sound (m_qd m) d1 e from false (m_id m) (m_an m) qs H ltac:(discriminate)) as (s' & i' & tm' & L' & b & qs' & Cf & E' & _).
    rewrite E' in E. cbn [bind] in E. injection E as <- _ _. split; [apply moves_refl|reflexivity].
  - destruct (responses_re _ _ _ _ _ _ _) as [[d2 a2]| | |] eqn:E2; cbn [bind] in E; try discriminate. injection E as <- _ _. apply moves_responses in E2. exact E2.
Qed.
End Moves.

(* ------------------------------------------------------------------ *)
(* The query is new and its turn is next *)
Definition due (n : list Z) (ty t : Z) (s : qrys) : Prop :=
  forall q x, qh s q = Some x -> q_nm x = n -> q_ty x = ty -> q_tries x = 0 /\ 0 < q_next x <= t /\ 0 < checkq s <= t.
Lemma due_later : forall n ty t t' s, t <= t' -> due n ty t s -> due n ty t' s.
Proof. intros n ty t t' s L D q x E N T. destruct (D q x E N T) as (A1 & A2 & A3). repeat split; lia. Qed.
Lemma due_moves : forall n ty t s s', 0 < t -> due n ty t s -> moves t s s' -> due n ty t s'.
Proof.
  intros n ty t s s' P D [M1 M2] q y E N T. destruct (M1 q y E) as [(x & Ex & K1 & K2 & K3 & K4)|(K1 & K2 & K3)].
  - destruct (D q x Ex) as (A1 & A2 & A3); [congruence|congruence|]. rewrite K3, K4. split; [exact A1|]. split; [exact A2|]. destruct M2 as [M2|M2]; rewrite M2; lia.
  - rewrite K1, K2, K3. lia.
Qed.

Lemma nodup_le : forall n (l : list nat), NoDup l -> (forall x, In x l -> (x < n)%nat) -> (length l <= n)%nat.
Proof. intros n l ND L. rewrite <- (seq_length n 0). apply NoDup_incl_length; [exact ND|]. intros x I. apply in_seq. specialize (L x I). lia. Qed.

Section Loop.
Context {A : Type} (beh : behaviour A) (Ia : A -> Prop) (P : answer -> Prop) (strict : bool).
Hypothesis Pttl : forall x t, P x -> P (set_ttl x t).
Hypothesis Hb : forall a k x, Ia a -> P x -> exists a' l rm, beh a k x = Ok (a', l, rm) /\ Ia a' /\
  (rm = true -> Forall registers l) /\ (strict = true -> rm = false /\ Forall registers l).

Definition behind (t best : Z) (rest : list nat) (s : qrys) : Prop :=
  forall q x, qh s q = Some x -> 0 < q_next x -> (In q rest /\ q_next x <= t /\ q_tries x <> 3) \/ 0 < best <= Z.max (q_next x) t.

Lemma loop_asks : forall rest n pre s a t frm cls m best ret s' a' m' best' ret', sound Ia P s a -> 0 < t ->
  (strict = true \/ forall q x, In q rest -> qh s q = Some x -> rests t x = false) -> qlist s = pre ++ rest -> (length rest < n)%nat -> behind t best rest s -> 0 <= best ->
  query_loop_re beh n s a t frm cls (hd_error rest) m best ret = Ok (s', a', m', best', ret') ->
  (exists k, m' = m ++ k) /\ 0 <= best' /\ (0 < best -> 0 < best' <= best) /\
  (forall q y, qh s' q = Some y -> (exists x, qh s q = Some x /\ q_nm y = q_nm x /\ q_ty y = q_ty x /\ (In q rest \/ q_next y = q_next x /\ q_tries y = q_tries x)) \/ (q_tries y = 0 /\ q_next y = t /\ 0 < best' <= t)).
Proof.
  induction rest as [|i rest IH]; intros n pre s a t frm cls m best ret s' a' m' best' ret' So N Md El Ln J B E; destruct n as [|n]; try (cbn [length] in Ln; lia); cbn [hd_error query_loop_re] in E.
  - injection E as <- <- <- <- <-. split; [exists []; rewrite app_nil_r; reflexivity|]. split; [exact B|]. split; [lia|]. intros q y Ey. left. exists y. repeat split; auto.
  - pose proof (so_inv _ _ _ _ So) as H. assert (Li : In i (qlist s)) by (rewrite El; apply in_or_app; right; left; reflexivity).
    destruct (qh s i) as [x|] eqn:Ex; [|apply (qi_live _ H) in Li; contradiction]. rewrite (qget_some _ _ _ Ex) in E. cbn [bind] in E.
    assert (LK : forall s' p, qinv s' -> qlist s' = p ++ pre ++ i :: rest -> qh s' i <> None -> q_link s' i = Ok (hd_error rest)).
    { intros s2 p H' E2 K. unfold q_link. destruct (qh s2 i) as [y|] eqn:Ey; [|congruence]. rewrite (qget_some _ _ _ Ey). cbn [bind].
      pose proof (qi_nodup _ H') as ND. rewrite E2, app_assoc in *. pose proof (NoDup_remove_2 _ _ _ ND) as Ni. rewrite in_app_iff in Ni. rewrite tail_after_mid by tauto. reflexivity. }
    assert (TL : (length rest < n)%nat) by (cbn [length] in Ln; lia).
    pose proof (qi_nodup _ H) as ND. rewrite El in ND. pose proof (NoDup_remove_2 _ _ _ ND) as Ni. rewrite in_app_iff in Ni.
    destruct (so_num _ _ _ _ So i x Ex) as [Nt Nn].
    destruct ((q_next x =? 0) || (t <? q_next x)) eqn:C1.
    + rewrite (LK s [] H El) in E by congruence. cbn [bind] in E. assert (K : (exists k, m' = m ++ k) /\ 0 <= best' /\ (0 < best -> 0 < best' <= best) /\
        (forall q y, qh s' q = Some y -> (exists x, qh s q = Some x /\ q_nm y = q_nm x /\ q_ty y = q_ty x /\ (In q rest \/ q_next y = q_next x /\ q_tries y = q_tries x)) \/ (q_tries y = 0 /\ q_next y = t /\ 0 < best' <= t))).
      2:{ destruct K as (K1 & K2 & K3 & K4). split; [exact K1|]. split; [exact K2|]. split; [exact K3|]. intros q y Ey. destruct (K4 q y Ey) as [(z & Ez & Z1 & Z2 & Z3)|K]; [left|auto]. exists z. split; [exact Ez|]. split; [exact Z1|]. split; [exact Z2|]. cbn [In]. tauto. }
      eapply (IH n (pre ++ [i])); [exact So|exact N| | |exact TL| |exact B|exact E].
      * destruct Md as [Md|Md]; [auto|right]. intros q y I. apply Md. right. exact I.
      * rewrite <- app_assoc. exact El.
      * intros q y Ey Py. destruct (J q y Ey Py) as [([->|I] & L1 & L2)|K]; [exfalso; replace y with x in * by congruence; lia|auto|auto].
    + destruct (q_tries x =? 3) eqn:C2.
      * destruct Md as [Md|Md].
        2:{ exfalso. specialize (Md i x (or_introl eq_refl) Ex). unfold rests in Md. lia. }
        destruct (c_expire_sound beh Ia P strict Pttl Hb s a t (cbucket (q_nm x)) So ltac:(lia) (cbucket_lt _)) as (s1 & a1 & E1 & So1 & T1 & G1). rewrite E1 in E. cbn [bind] in E.
        pose proof (moves_c_expire beh _ _ _ _ _ _ E1) as [Mo _].
        destruct (G1 Md) as [Gq (p & Gl)]. destruct (Gq i x Ex) as (y & Ey & Ny & Yy & _).
        unfold q_reset in E. rewrite (qget_some _ _ _ Ey) in E. cbn [bind] in E. cbv zeta in E. set (tt := reset_try _ _ _) in E.
        set (s2 := qset s1 i (set_qnext y tt 0)) in E. pose proof So1 as [H1 N1 P1 D1 I1].
        assert (H2 : qinv s2) by (eapply qset_inv; [exact H1|exact Ey|reflexivity|reflexivity]).
        set (s3 := if negb (tt =? 0) && (tt <? checkq s2) then set_checkq s2 tt else s2) in E.
        assert (H3 : qinv s3) by (unfold s3; destruct (_ && _); [apply set_checkq_inv|]; exact H2).
        assert (F3 : qh s3 = qh s2 /\ qlist s3 = qlist s1 /\ cache s3 = cache s1 /\ told s3 = told s1) by (unfold s3; destruct (_ && _); repeat split).
        destruct F3 as (F1 & F2 & F3 & F4).
        assert (So3 : sound Ia P s3 a1).
        { split; auto.
          - intros q z Ez. rewrite F1 in Ez. cbn [s2 qset set_qh qh] in Ez. destruct (Nat.eqb_spec q i) as [->|D]; [|exact (N1 q z Ez)].
            injection Ez as <-. cbn [set_qnext q_tries q_next]. split; [lia|]. apply reset_try_pos. intros c Ic. exact (P1 _ c Ic).
          - intros j c. unfold centries. rewrite F3. exact (P1 j c).
          - intros j c. unfold centries. rewrite F3. exact (D1 j c). }
        rewrite (LK s3 p H3) in E.
        2:{ rewrite F2, Gl, El. reflexivity. }
        2:{ rewrite F1. cbn [s2 qset set_qh qh]. rewrite Nat.eqb_refl. discriminate. }
        cbn [bind] in E.
        assert (Bt : 0 < best <= t) by (destruct (J i x Ex) as [(_ & _ & L)|L]; lia).
        destruct (IH n (p ++ pre ++ [i]) s3 a1 t frm cls m best ret s' a' m' best' ret' So3 N (or_introl Md)) as (K1 & K2 & K3 & K4).
        { rewrite F2, Gl, El, <- !app_assoc. reflexivity. }
        { exact TL. }
        { intros q z _ _. right. lia. }
        { exact B. }
        { exact E. }
        split; [exact K1|]. split; [exact K2|]. split; [exact K3|]. intros q z Ez. destruct (K4 q z Ez) as [(w & Ew & Nw & Yw & Cw)|K]; [|auto].
        rewrite F1 in Ew. cbn [s2 qset set_qh qh] in Ew. destruct (Nat.eqb_spec q i) as [->|D].
        { injection Ew as <-. cbn [set_qnext q_nm q_ty] in *. left. exists x. split; [exact Ex|]. split; [congruence|]. split; [congruence|]. left. left. reflexivity. }
        destruct (qh s q) as [v|] eqn:Ev.
        { left. exists v. split; [reflexivity|]. destruct (Gq q v Ev) as (w' & Ew' & V1 & V2 & V3 & V4). replace w' with w in * by congruence. split; [congruence|]. split; [congruence|].
          destruct Cw as [Cw|[Cw1 Cw2]]; [left; right; exact Cw|right; split; congruence]. }
        right. destruct (Mo q w Ew) as [(v & Ev' & _)|(V1 & V2 & _)]; [congruence|]. destruct Cw as [Cw|[Cw1 Cw2]].
        { exfalso. assert (Iq : In q (qlist s)) by (rewrite El; apply in_or_app; right; right; exact Cw). apply (qi_live _ H) in Iq. contradiction. }
        split; [congruence|]. split; [congruence|]. specialize (K3 ltac:(lia)). lia.
      * cbv zeta in E. set (s1 := qset s i (set_qnext x (t + (q_tries x + 1)) (q_tries x + 1))) in E. pose proof So as [_ Hn Hc Hd I].
        assert (H1 : qinv s1) by (eapply qset_inv; [exact H|exact Ex|reflexivity|reflexivity]).
        rewrite (LK s1 [] H1 El) in E. 2:{ cbn [s1 qset set_qh qh]. rewrite Nat.eqb_refl. discriminate. }
        cbn [bind] in E. set (best1 := if (best =? 0) || (t + (q_tries x + 1) <? best) then t + (q_tries x + 1) else best) in E.
        assert (B1 : 0 < best1 <= t + (q_tries x + 1) /\ (0 < best -> best1 <= best)) by (unfold best1; clear - Nt Nn N B; destruct (best =? 0) eqn:Q1, (t + (q_tries x + 1) <? best) eqn:Q2; cbn [orb]; lia).
        destruct (IH n (pre ++ [i]) s1 a t frm cls (known_answers frm cls t (q_nm x) (q_ty x) (centries s1 (cbucket (q_nm x))) m) best1 (ret + 1) s' a' m' best' ret') as (K1 & K2 & K3 & K4).
        { split; auto. intros q z Ez. cbn [s1 qset set_qh qh] in Ez. destruct (Nat.eqb_spec q i) as [->|D]; [|exact (Hn q z Ez)].
          injection Ez as <-. cbn [set_qnext q_tries q_next]. lia. }
        { exact N. }
        { destruct Md as [Md|Md]; [auto|right]. intros q y Iq Ey. cbn [s1 qset set_qh qh] in Ey. destruct (Nat.eqb_spec q i) as [->|D]; [tauto|]. apply (Md q y); [right; exact Iq|exact Ey]. }
        { rewrite <- app_assoc. exact El. }
        { exact TL. }
        { intros q y Ey Py. cbn [s1 qset set_qh qh] in Ey. destruct (Nat.eqb_spec q i) as [->|D]; [injection Ey as <-; right; cbn [set_qnext q_next]; lia|].
          destruct (J q y Ey Py) as [([->|Iq] & L1 & L2)|L]; [congruence|auto|right; lia]. }
        { lia. }
        { exact E. }
        split. { destruct K1 as (k & ->). destruct (known_answers_spec frm cls t (q_nm x) (q_ty x) (centries s1 (cbucket (q_nm x))) m) as (cs & -> & _). rewrite <- app_assoc. eauto. }
        split; [exact K2|]. split; [intros L; specialize (K3 ltac:(lia)); lia|]. intros q y Ey. destruct (K4 q y Ey) as [(z & Ez & Z1 & Z2 & Z3)|K]; [left|auto].
        cbn [s1 qset set_qh qh] in Ez. destruct (Nat.eqb_spec q i) as [->|D].
        { injection Ez as <-. cbn [set_qnext q_nm q_ty] in *. exists x. split; [exact Ex|]. split; [congruence|]. split; [congruence|]. left. left. reflexivity. }
        exists z. split; [exact Ez|]. split; [exact Z1|]. split; [exact Z2|]. cbn [In]. tauto.
Qed.

(* What mdnsd_out does about queries *)
Lemma out_query_asks : forall n ty s a t frm cls m s' a' m' ret, sound Ia P s a -> 0 < t -> (strict = true \/ forall q x, qh s q = Some x -> rests t x = false) -> due n ty t s ->
  out_query_re beh s a t frm cls m = Ok (s', a', m', ret) ->
  ((exists q x, qh s q = Some x /\ q_nm x = n /\ q_ty x = ty) /\ In (MQd n ty cls) m') \/
  (due n ty t s' /\ forall q x, qh s q = Some x -> q_nm x = n -> q_ty x = ty -> False).
Proof.
  intros n ty s a t frm cls m s' a' m' ret So N Md D E. unfold out_query_re in E. destruct (negb (checkq s =? 0) && (checkq s <=? t)) eqn:C; [|right; injection E as <- _ _ _; split; [exact D|]; intros q x Ex F1 F2; destruct (D q x Ex F1 F2) as (_ & _ & K); lia].
  pose proof (so_inv _ _ _ _ So) as H. rewrite query_ask_spec in E by (intros q I; apply (qi_live _ H); exact I). cbn [bind] in E.
  set (l := queries_at s (qlist s)) in *.
  assert (Fp : Forall (fun n => 0 < n) (map q_next (filter (fun x => negb (QryLoop.asks t x) && (0 <? q_next x)) l))).
  { apply Forall_forall. intros k K. apply in_map_iff in K as (x & <- & K). apply filter_In in K as [_ K]. apply andb_true_iff in K as [_ K]. lia. }
  destruct (sooner_best _ 0 ltac:(lia) Fp) as (S1 & S2 & _). set (best := fold_left sooner _ 0) in *.
  destruct (query_loop_re _ _ _ _ _ _ _ _ _ _ _) as [[[[[s1 a1] m1] b1] r1]| | |] eqn:El; cbn [bind] in E; try discriminate. injection E as <- <- <- <-.
  assert (IL : forall q x, qh s q = Some x -> In x l).
  { intros q x Ex. unfold l, queries_at. apply in_flat_map. exists q. split; [apply (qi_live _ H); congruence|]. rewrite Ex. left. reflexivity. }
  destruct (loop_asks (qlist s) (S (qfresh s)) [] s a t frm cls (m ++ map (question_of cls) (filter (QryLoop.asks t) l)) best 0 s1 a1 m1 b1 r1 So N) as (K1 & K2 & K3 & K4); [| | | | |exact El|].
  { destruct Md as [Md|Md]; [auto|right]. intros q x _. apply Md. }
  { reflexivity. }
  { pose proof (nodup_le (qfresh s) (qlist s) (qi_nodup _ H)) as K. apply Nat.lt_succ_r. apply K. intros q I. apply (qi_fresh _ H). apply (qi_live _ H). exact I. }
  { intros q x Ex Px. destruct (QryLoop.asks t x) eqn:As.
    - left. unfold QryLoop.asks in As. split; [apply (qi_live _ H); congruence|]. lia.
    - right. assert (K : In (q_next x) (map q_next (filter (fun x => negb (QryLoop.asks t x) && (0 <? q_next x)) l))).
      { apply in_map. apply filter_In. split; [eapply IL; exact Ex|]. rewrite As. cbn [negb andb]. lia. }
      apply S2 in K. lia. }
  { exact S1. }
  destruct (existsb (fun x => bytes_eqb (q_nm x) n && (q_ty x =? ty)) l) eqn:Ee.
  - left. apply existsb_exists in Ee as (x & Ix & Kx). apply andb_true_iff in Kx as [Kn Ky]. apply bytes_eqb_eq in Kn. apply Z.eqb_eq in Ky.
    unfold l, queries_at in Ix. apply in_flat_map in Ix as (q & Iq & Ix). destruct (qh s q) as [x'|] eqn:Ex; [|destruct Ix]. destruct Ix as [->|[]]. split; [eauto|].
    destruct K1 as (k & ->). apply in_or_app. left. apply in_or_app. right. apply in_map_iff. exists x. split; [unfold question_of; congruence|]. apply filter_In. split; [eapply IL; exact Ex|].
    destruct (D q x Ex Kn Ky) as (D1 & D2 & _). unfold QryLoop.asks. lia.
  - right. assert (Nn : forall q x, qh s q = Some x -> q_nm x = n -> q_ty x = ty -> False).
    2:{ split; [|exact Nn]. intros q y Ey Ny Yy. cbn [set_checkq qh checkq] in *. destruct (K4 q y Ey) as [(x & Ex & X1 & X2 & _)|K]; [|repeat split; lia]. destruct (Nn q x Ex); congruence. }
    intros q x Ex X1 X2. assert (Ht : existsb (fun x => bytes_eqb (q_nm x) n && (q_ty x =? ty)) l = true); [|congruence]. apply existsb_exists. exists x. split; [eapply IL; exact Ex|].
    apply andb_true_iff. split; [rewrite X1; apply bytes_eqb_refl|lia].
Qed.

Lemma quiet_first : forall d e qs, rinv (R d) qs -> nothing_waits d -> out_first d e = Ok (with_now d (e_now e), [], None).
Proof.
  intros d e qs H (U & W & Sd).
  assert (Hd : forall k, head (R d) k = None).
  { intros k. pose proof (proj1 (no_waits d qs k H) (W k)) as K. pose proof (qk_chain _ _ (ri_q _ _ H) k) as C. rewrite K in C. inversion C. reflexivity. }
  assert (E1 : a_publish (R d) = None) by exact (Hd Publish). assert (E2 : a_pause (R d) = None) by exact (Hd Pause). assert (E3 : probing (R d) = None) by exact (Hd Probing).
  unfold out_first. cbv zeta. cbn [with_now R frame class d_family is_shutdown disco]. rewrite U. unfold qfuel. cbn [r_out]. rewrite (Hd Now). cbn [bind]. unfold out_publish. rewrite E3, E1. cbn [bind]. rewrite Sd, E2. cbn [bind additionals].
  change (negb (0 =? 0)) with false. cbn [bind]. unfold out_probe. rewrite E3. cbn [bind]. change (negb (0 =? 0)) with false. cbv iota. destruct d; reflexivity.
Qed.

Lemma out_asks : forall n ty d a e d' a' m k qs, dsound Ia P d a qs -> 0 < fst (e_now e) -> strict = true \/ unexhausted d (fst (e_now e)) -> due n ty (fst (e_now e)) (Q d) ->
  out_re beh d a e = Ok (d', a', m, k) ->
  now d' = e_now e /\ ((exists c, In (MQd n ty c) (o_calls m)) \/
    (due n ty (fst (e_now e)) (Q d') /\ (nothing_waits d -> forall x, registered d x -> ~ is_for x n ty))).
Proof.
  intros n ty d a e d' a' m k qs [H So N0] N Md D E. unfold out_re in E. destruct (out_first_ok d e qs H ltac:(lia)) as (s & m0 & sent & qs' & E1 & H'). rewrite E1 in E. cbn [bind] in E.
  destruct sent as [[m1 ret]|].
  { injection E as <- <- <- <-. split; [reflexivity|]. right. split; [exact D|]. intros Qt. exfalso. rewrite (quiet_first d e qs H Qt) in E1. discriminate. }
  cbv zeta in E. cbn [with_R with_now Q frame class expireall d_family] in E.
  destruct (out_query_re _ _ _ _ _ _ _) as [[[[s1 a1] m1] r1]| | |] eqn:E2; cbn [bind] in E; try discriminate.
  assert (Md' : strict = true \/ (forall q x, qh (Q d) q = Some x -> rests (fst (e_now e)) x = false)).
  { destruct Md as [Md|Md]; [auto|right]. intros q x Ex. unfold rests. specialize (Md q x Ex). destruct (0 <? q_next x) eqn:?, (q_next x <=? fst (e_now e)) eqn:?, (q_tries x =? 3) eqn:?; try reflexivity. exfalso. lia. }
  destruct (out_query_asks n ty (Q d) a (fst (e_now e)) (frame d) (class d) m0 s1 a1 m1 r1 So N Md' D E2) as [[_ As]|[D' Nn]].
  { destruct (expireall d <? fst (e_now e)).
    - destruct (gc_re _ _ _ _ _) as [[s2 a2]| | |]; cbn [bind] in E; try discriminate. injection E as <- <- <- <-. split; [reflexivity|]. left. exists (class d). exact As.
    - injection E as <- <- <- <-. split; [reflexivity|]. left. exists (class d). exact As. }
  assert (Ns : forall x, registered d x -> ~ is_for x n ty) by (intros x (q & _ & Ex) [F1 F2]; exact (Nn q x Ex F1 F2)).
  destruct (expireall d <? fst (e_now e)).
  - destruct (gc_re _ _ _ _ _) as [[s2 a2]| | |] eqn:E3; cbn [bind] in E; try discriminate. injection E as <- <- <- <-. split; [reflexivity|]. right. split; [|auto].
    cbn [with_expireall with_Q Q]. eapply due_moves; [exact N|exact D'|eapply moves_gc; exact E3].
  - injection E as <- <- <- <-. split; [reflexivity|]. right. split; [exact D'|auto].
Qed.
End Loop.

(* ------------------------------------------------------------------ *)
Lemma other_moves : forall d e o d' x qs, rinv (R d) qs -> (forall m from, o <> OIn m from) -> o <> OOut ->
  step d e o = Ok (d', x) -> moves (fst (now d)) (Q d) (Q d') /\ (now d' = now d \/ now d' = e_now e).
Proof.
  intros d e o d' x qs HR NI NO E.
  assert (S : Q d' = Q d /\ now d' = now d -> moves (fst (now d)) (Q d) (Q d') /\ (now d' = now d \/ now d' = e_now e)) by (intros [K1 K2]; rewrite K1, K2; split; [apply moves_refl|auto]).
  assert (Rc : forall y, on_recs d y = Ok (d', x) -> Q d' = Q d /\ now d' = now d) by (intros [s| | |]; unfold on_recs; cbn [bind]; try discriminate; intros [= <- _]; split; reflexivity).
  assert (Rn : forall y, on_new d y = Ok (d', x) -> Q d' = Q d /\ now d' = now d) by (intros [[s r]| | |]; unfold on_new; cbn [bind]; try discriminate; intros [= <- _]; split; reflexivity).
  destruct o; cbn [step] in E; try (apply S; (apply Rc in E || apply Rn in E); exact E).
  - destruct (bytes_eqb _ _) in E; [injection E as <- _; apply S; split; reflexivity|]. destruct (set_all _ _ _ _ _) as [s| | |]; cbn [bind] in E; try discriminate. injection E as <- _. apply S; split; reflexivity.
  - destruct (bytes_eqb _ _) in E; [injection E as <- _; apply S; split; reflexivity|]. destruct (set_all _ _ _ _ _) as [s| | |]; cbn [bind] in E; try discriminate. injection E as <- _. apply S; split; reflexivity.
  - injection E as <- _. apply S; split; reflexivity.
  - injection E as <- _. apply S; split; reflexivity.
  - destruct (shutdown_recs _) as [s| | |]; cbn [bind] in E; try discriminate. injection E as <- _. apply S; split; reflexivity.
  - match type of E with context[mdnsd_query ?a ?b ?h ?t ?c] => destruct (mdnsd_query a b h t c) as [s'| | |] eqn:Eq end; cbn [bind] in E; try discriminate. injection E as <- _.
    cbn [with_Q Q now]. split; [eapply moves_query; exact Eq|auto].
  - destruct (NI m from eq_refl).
  - destruct (NO eq_refl).
  - destruct (mdnsd_sleep_spec d e qs HR) as (d2 & t & qs' & Es & O & _). rewrite Es in E. cbn [bind] in E. injection E as <- _.
    assert (K : Q d2 = Q d /\ (now d2 = now d \/ now d2 = e_now e)) by (destruct O; auto). destruct K as [K1 K2]. rewrite K1. split; [apply moves_refl|exact K2].
  - injection E as <- _. apply S; split; reflexivity.
Qed.

Lemma question_item : forall n ty c l, In (MQd n ty c) l -> In (IQuestion n ty c) (items l).
Proof.
  induction l as [|x l IH]; intros I; [exact I|]. destruct I as [->|I]; [left; reflexivity|]. destruct x; cbn [items]; try (right; apply IH; exact I); apply IH; exact I.
Qed.

Lemma goes_on_runs : forall A (beh : behaviour A) I a0 d a ms d1 a1, orderly beh I -> I a0 -> runs beh I a0 d a -> 0 <= fst (now d) -> goes_on beh I d a ms d1 a1 ->
  runs beh I a0 d1 a1 /\ 0 <= fst (now d1).
Proof.
  intros A beh I a0 d a ms d1 a1 O I0 Rn N G. induction G as [|ms d1 a1 e o d2 x G [IH1 IH2] T L NI NO E|ms d1 a1 e m from d2 a2 k G [IH1 IH2] T W E|ms d1 a1 e d2 a2 m k G [IH1 IH2] T M E].
  - auto.
  - assert (R2 : runs beh I a0 d2 a1) by (eapply runs_call; eauto). split; [exact R2|]. destruct (runs_sound A beh I a0 O I0 d2 a1 R2) as [(qs & D) _]. exact (ds_now _ _ _ _ _ D).
  - assert (R2 : runs beh I a0 d2 a2) by (eapply runs_in; eauto; lia). split; [exact R2|]. destruct (runs_sound A beh I a0 O I0 d2 a2 R2) as [(qs & D) _]. exact (ds_now _ _ _ _ _ D).
  - assert (R2 : runs beh I a0 d2 a2) by (eapply runs_out; eauto; lia). split; [exact R2|]. destruct (runs_sound A beh I a0 O I0 d2 a2 R2) as [(qs & D) _]. exact (ds_now _ _ _ _ _ D).
Qed.

Lemma out_step : forall A (beh : behaviour A) I a0 n ty d a e d' a' m k, orderly beh I -> I a0 -> runs beh I a0 d a -> 0 < fst (now d) -> fst (now d) <= fst (e_now e) ->
  adding beh I \/ unexhausted d (fst (e_now e)) -> due n ty (fst (now d)) (Q d) -> out_re beh d a e = Ok (d', a', m, k) ->
  (exists c, says m (IQuestion n ty c)) \/ (due n ty (fst (e_now e)) (Q d') /\ (nothing_waits d -> forall x, registered d x -> ~ is_for x n ty)).
Proof.
  intros A beh I a0 n ty d a e d' a' m k O I0 Rn N T M D E. destruct (runs_sound A beh I a0 O I0 d a Rn) as [(qs & S) _].
  assert (D' : due n ty (fst (e_now e)) (Q d)) by (eapply due_later; [exact T|exact D]).
  assert (K : now d' = e_now e /\ ((exists c, In (MQd n ty c) (o_calls m)) \/ (due n ty (fst (e_now e)) (Q d') /\ (nothing_waits d -> forall x, registered d x -> ~ is_for x n ty)))).
  { destruct M as [M|M].
    - exact (out_asks beh I named true named_ttl (adding_hyp A beh I M) n ty d a e d' a' m k qs S ltac:(lia) (or_introl eq_refl) D' E).
    - exact (out_asks beh I named false named_ttl (orderly_hyp A beh I O) n ty d a e d' a' m k qs S ltac:(lia) (or_intror M) D' E). }
  destruct K as [_ [(c & K)|K]]; [left; exists c; apply question_item; exact K|right; exact K].
Qed.

Lemma goes_on_asks : forall A (beh : behaviour A) I a0 n ty d a ms d1 a1, orderly beh I -> I a0 -> runs beh I a0 d a -> 0 < fst (now d) ->
  (forall x, registered d x -> ~ is_for x n ty) -> goes_on beh I d a ms d1 a1 ->
  0 < fst (now d1) /\ ((exists m c, In m ms /\ says m (IQuestion n ty c)) \/ due n ty (fst (now d1)) (Q d1)).
Proof.
  intros A beh I a0 n ty d a ms d1 a1 O I0 Rn N Nr G. induction G as [|ms d1 a1 e o d2 x G [IH1 IH2] T L NI NO E|ms d1 a1 e m from d2 a2 k G [IH1 IH2] T W E|ms d1 a1 e d2 a2 m k G [IH1 IH2] T M E].
  - split; [exact N|]. right. intros q x Ex F1 F2. exfalso. destruct (runs_sound A beh I a0 O I0 d a Rn) as [(qs & D) _]. apply (Nr x); [|split; assumption].
    exists q. split; [|exact Ex]. apply (qi_live _ (so_inv _ _ _ _ (ds_q _ _ _ _ _ D))). congruence.
  - destruct (goes_on_runs A beh I a0 d a ms d1 a1 O I0 Rn ltac:(lia) G) as [R1 _]. destruct (runs_sound A beh I a0 O I0 d1 a1 R1) as [(qs & D) _].
    destruct (other_moves d1 e o d2 x qs (ds_r _ _ _ _ _ D) NI NO E) as [Mv Nw]. assert (Nl : fst (now d1) <= fst (now d2)) by (destruct Nw as [Nw|Nw]; rewrite Nw; lia).
    split; [lia|]. destruct IH2 as [IH2|IH2]; [left; exact IH2|right]. eapply due_later; [exact Nl|]. eapply due_moves; [lia|exact IH2|exact Mv].
  - destruct (goes_on_runs A beh I a0 d a ms d1 a1 O I0 Rn ltac:(lia) G) as [R1 _]. destruct (runs_sound A beh I a0 O I0 d1 a1 R1) as [(qs & D) _].
    destruct (moves_in beh d1 a1 e m from d2 a2 k qs (ds_r _ _ _ _ _ D) E) as [[-> _]|[Mv Nw]]; [auto|]. rewrite Nw. split; [lia|]. destruct IH2 as [IH2|IH2]; [left; exact IH2|right].
    eapply due_moves; [lia| |exact Mv]. eapply due_later; [|exact IH2]. exact T.
  - destruct (goes_on_runs A beh I a0 d a ms d1 a1 O I0 Rn ltac:(lia) G) as [R1 _]. destruct (runs_sound A beh I a0 O I0 d1 a1 R1) as [(qs & D) _].
    assert (N0 : now d2 = e_now e).
    { destruct (out_first_ok d1 e qs (ds_r _ _ _ _ _ D) ltac:(lia)) as (s & m0 & sent & qs' & E1 & _). unfold out_re in E. rewrite E1 in E. cbn [bind] in E.
      destruct sent as [[m1 ret]|]; [injection E as <- _ _ _; reflexivity|]. cbv zeta in E. destruct (out_query_re _ _ _ _ _ _ _) as [[[[s1 x1] m1] r1]| | |]; cbn [bind] in E; try discriminate.
      destruct (_ <? _) in E; [destruct (gc_re _ _ _ _ _) as [[s2 x2]| | |]; cbn [bind] in E; try discriminate|]; injection E as <- _ _ _; reflexivity. }
    rewrite N0. split; [lia|]. destruct IH2 as [(m1 & c & I1 & S1)|IH2]; [left; exists m1, c; split; [apply in_or_app; left; exact I1|exact S1]|].
    destruct (out_step A beh I a0 n ty d1 a1 e d2 a2 m k O I0 R1 ltac:(lia) T M IH2 E) as [(c & K)|[K _]]; [left; exists m, c; split; [apply in_or_app; right; left; reflexivity|exact K]|right; exact K].
Qed.

Lemma registered_asked : forall A (beh : behaviour A) I a0 n ty d a ms d1 a1 e d2 a2 m k, orderly beh I -> I a0 -> runs beh I a0 d a -> 0 < fst (now d) ->
  (forall x, registered d x -> ~ is_for x n ty) -> goes_on beh I d a ms d1 a1 -> (exists x, registered d1 x /\ is_for x n ty) -> nothing_waits d1 ->
  fst (now d1) <= fst (e_now e) -> adding beh I \/ unexhausted d1 (fst (e_now e)) -> out_re beh d1 a1 e = Ok (d2, a2, m, k) ->
  exists m' c, In m' (ms ++ [m]) /\ says m' (IQuestion n ty c).
Proof.
  intros A beh I a0 n ty d a ms d1 a1 e d2 a2 m k O I0 Rn N Nr G (x & Rx & Fx) Qt T M E. destruct (goes_on_asks A beh I a0 n ty d a ms d1 a1 O I0 Rn N Nr G) as [N1 [(m1 & c & I1 & S1)|D]].
  { exists m1, c. split; [apply in_or_app; left; exact I1|exact S1]. }
  destruct (goes_on_runs A beh I a0 d a ms d1 a1 O I0 Rn ltac:(lia) G) as [R1 _].
  destruct (out_step A beh I a0 n ty d1 a1 e d2 a2 m k O I0 R1 N1 T M D E) as [(c & K)|[_ K]]; [exists m, c; split; [apply in_or_app; right; left; reflexivity|exact K]|].
  destruct (K Qt x Rx Fx).
Qed.
