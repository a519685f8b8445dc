(* The outcome of mdnsd_out. *)
From Verif Require Import Base Lemmas Wire Rec Qry Out In Api RecInv RecSafe RecOps RecAddr OutSafe QryInv QryOps CacheOps QryLoop OutPub OutProbe OutExtra OutAll.

(* What leaves the three answer queues in one call: Now and Pause entries are
   taken from the front, announcements are sent from the front and those that
   are not finished stay. *)
Record drained (d : daemon) (t : tv) (qs : queue -> list nat) (N restN P restP A restA : list nat) : Prop := mkdrained {
  dr_now : qs Now = N ++ restN;
  dr_publish : qs Publish = P ++ restP;
  dr_pause : qs Pause = A ++ restA;
  dr_due : announce_due (R d) qs t = false -> P = [];
  dr_pdue : pause_due (R d) qs t = false -> A = [];
  dr_bnow : blocked (hp (R d)) (frame d) (calls_of (class d) (hp (R d)) (sent_of (disco d) (hp (R d)) N)) restN;
  dr_bpub : announce_due (R d) qs t = true -> blocked (hp (R d)) (frame d) (calls_of (class d) (hp (R d)) (sent_of (disco d) (hp (R d)) N ++ P)) restP;
  dr_bpause : pause_due (R d) qs t = true ->
    blocked (hp (R d)) (frame d) (calls_of (class d) (hp (R d)) (sent_of (disco d) (hp (R d)) N ++ P ++ sent_of (disco d) (hp (R d)) A)) restA
}.

Definition left_over (h : heap) (restN P restP restA : list nat) (qs : queue -> list nat) : queue -> list nat :=
  on Pause restA (on Publish (stays h P ++ restP) (on Now restN qs)).

(* The records that are due to be probed *)
Definition probe_due (s : recs) (qs : queue -> list nat) (t : tv) : list nat := if tvdiff t (t_probe s) <=? 0 then qs Probing else [].

(* What the query part does *)
Definition queries_out (d : daemon) (t : Z) (q' : qrys) (m : list mcall) (ret : Z) : Prop :=
  if negb (checkq (Q d) =? 0) && (checkq (Q d) <=? t) then
    (forall q, qh q' q = option_map (after_turn (Q d) t) (qh (Q d) q)) /\
    (exists ks, m = map (question_of (class d)) (filter (QryLoop.asks t) (queries_at (Q d) (qlist (Q d)))) ++ flat_map (ka_calls (class d) t) ks /\ Forall (ka_ok (Q d) t (qlist (Q d))) ks /\ ka_full (Q d) t (frame d) (qlist (Q d)) m ks) /\
    ret = zlen (filter (QryLoop.asks t) (queries_at (Q d) (qlist (Q d)))) /\
    checkq q' = fold_left sooner (map (fun x => t + (q_tries x + 1)) (filter (QryLoop.asks t) (queries_at (Q d) (qlist (Q d)))))
                  (fold_left sooner (map q_next (filter (fun x => negb (QryLoop.asks t x) && (0 <? q_next x)) (queries_at (Q d) (qlist (Q d))))) 0)
  else m = [] /\ ret = 0 /\ qh q' = qh (Q d) /\ checkq q' = checkq (Q d).

(* Entries are those before, or those of them that have not expired *)
Definition cache_kept (t : Z) (s s' : qrys) : Prop :=
  forall i, Forall2 crel (centries s i) (centries s' i) \/ Forall2 crel (filter (alive t) (centries s i)) (centries s' i).

Inductive outcome (d : daemon) (e : env) (qs : queue -> list nat) : daemon -> omsg -> Z -> (queue -> list nat) -> Prop :=
| o_unicast : forall u us X added,
    uans (R d) = u :: us -> hp (R d) (u_r u) = Some X ->
    grows (R d) (frame d) (class d) (fun _ Y => accompanies (R d) X Y) (uni_calls (class d) X) [u_r u]
      (uni_calls (class d) X ++ extras (class d) (hp (R d)) added) (fold_left answered_add added [u_r u]) added ->
    outcome d e qs (with_R (with_now d (e_now e)) (set_hp (set_uans (R d) us) (hset (hp (R d)) (u_r u) (set_sent X (e_now e)))))
      (mkomsg (u_to u) (u_id u) true (uni_calls (class d) X ++ extras (class d) (hp (R d)) added)) 1 qs
| o_goodbye : forall N restN P restP s',
    uans (R d) = [] -> is_shutdown d = true ->
    qs Now = N ++ restN -> qs Publish = P ++ restP -> (announce_due (R d) qs (e_now e) = false -> P = []) ->
    after (sent_rec (e_now e) (sent_of (disco d) (hp (R d)) N) P) (hp (R d)) (hp s') -> uans s' = [] -> conflicts s' = conflicts (R d) ->
    blocked (hp (R d)) (frame d) (calls_of (class d) (hp (R d)) (sent_of (disco d) (hp (R d)) N)) restN ->
    outcome d e qs (with_R (with_now d (e_now e)) s')
      (mkomsg (mcast (d_family d)) 0 true (calls_of (class d) (hp (R d)) (sent_of (disco d) (hp (R d)) N ++ P)))
      (zlen (sent_of (disco d) (hp (R d)) N ++ P)) (on Publish (stays (hp (R d)) P ++ restP) (on Now restN qs))
| o_answers : forall N restN P restP A restA s' added all seen,
    uans (R d) = [] -> is_shutdown d = false -> drained d (e_now e) qs N restN P restP A restA ->
    all = sent_of (disco d) (hp (R d)) N ++ P ++ sent_of (disco d) (hp (R d)) A -> all <> [] ->
    seen = fold_left answered_add (kept_of (hp (R d)) all) [] ->
    after (sent_rec (e_now e) (sent_of (disco d) (hp (R d)) N ++ sent_of (disco d) (hp (R d)) A) P) (hp (R d)) (hp s') ->
    uans s' = [] -> t_pause s' = t_pause (R d) -> t_probe s' = t_probe (R d) -> conflicts s' = conflicts (R d) ->
    t_publish s' = (if announce_due (R d) qs (e_now e) && negb (match stays (hp (R d)) P ++ restP with [] => true | _ => false end)
                    then (fst (e_now e) + 2, snd (e_now e)) else t_publish (R d)) ->
    grows s' (frame d) (class d) (fun _ X => exists a A, In a all /\ hp s' a = Some A /\ accompanies s' A X)
      (calls_of (class d) (hp (R d)) all) seen (calls_of (class d) (hp (R d)) all ++ extras (class d) (hp s') added) (fold_left answered_add added seen) added ->
    outcome d e qs (with_R (with_now d (e_now e)) s')
      (mkomsg (mcast (d_family d)) 0 true (calls_of (class d) (hp (R d)) all ++ extras (class d) (hp s') added))
      (zlen all) (left_over (hp (R d)) restN P restP restA qs)
| o_probe : forall N restN A restA s' l,
    uans (R d) = [] -> is_shutdown d = false -> drained d (e_now e) qs N restN [] (qs Publish) A restA ->
    sent_of (disco d) (hp (R d)) N = [] -> sent_of (disco d) (hp (R d)) A = [] ->
    l = probe_due (R d) qs (e_now e) -> asked (hp (R d)) l <> [] ->
    after (upon l (probe_rec (e_now e))) (hp (R d)) (hp s') -> uans s' = [] -> conflicts s' = conflicts (R d) -> t_pause s' = t_pause (R d) ->
    t_probe s' = (fst (e_now e), snd (e_now e) + 250000) -> t_publish s' = (match ready (hp (R d)) l with [] => t_publish (R d) | _ => e_now e end) ->
    outcome d e qs (with_R (with_now d (e_now e)) s')
      (mkomsg (mcast (d_family d)) 0 false (asks (class d) (hp (R d)) l ++ flat_map (at_rec (hp (R d)) (fun X => if probed X then [] else tell_calls (class d) X)) l))
      (zlen (asked (hp (R d)) l))
      (on Publish (rev (ready (hp (R d)) l) ++ qs Publish) (on Probing (asked (hp (R d)) l) (on Pause restA (on Now restN qs))))
| o_query : forall N restN A restA s' q1 q' l m ret T U,
    uans (R d) = [] -> is_shutdown d = false -> drained d (e_now e) qs N restN [] (qs Publish) A restA ->
    sent_of (disco d) (hp (R d)) N = [] -> sent_of (disco d) (hp (R d)) A = [] ->
    l = probe_due (R d) qs (e_now e) -> asked (hp (R d)) l = [] ->
    after (upon l (probe_rec (e_now e))) (hp (R d)) (hp s') -> uans s' = [] -> conflicts s' = conflicts (R d) -> t_pause s' = t_pause (R d) -> t_probe s' = t_probe (R d) ->
    t_publish s' = (if announce_due (R d) qs (e_now e) then (fst (e_now e) + 2, snd (e_now e)) else match ready (hp (R d)) l with [] => t_publish (R d) | _ => e_now e end) ->
    queries_out d (fst (e_now e)) q1 m ret -> qlist q1 = qlist (Q d) -> shrinks (e_cb e) q1 q' U -> ((forall k, e_cb e k = false) -> qh q' = qh q1 /\ qlist q' = qlist q1) -> (unexhausted d (fst (e_now e)) -> told q1 = told (Q d) /\ ncb q1 = ncb (Q d)) -> cache_kept (fst (e_now e)) (Q d) q' -> told_ok (Q d) q' T ->
    (expireall d < fst (e_now e) -> forall i c, In c (centries q' i) -> fst (e_now e) < a_ttl (c_rr c)) ->
    outcome d e qs
      (with_expireall (with_Q (with_R (with_now d (e_now e)) s') q') (if expireall d <? fst (e_now e) then fst (e_now e) + GC else expireall d))
      (mkomsg (mcast (d_family d)) 0 false m) ret
      (on Publish (rev (ready (hp (R d)) l) ++ qs Publish) (on Probing (if tvdiff (e_now e) (t_probe (R d)) <=? 0 then [] else qs Probing) (on Pause restA (on Now restN qs)))).

Lemma zlen_zero : forall (A : Type) (l : list A), zlen l =? 0 = true -> l = [].
Proof. intros A [|x l] H; [reflexivity|]. rewrite zlen_cons in H. pose proof (zlen_nonneg _ l). lia. Qed.

Lemma after_nothing : forall t h h', after (sent_rec t [] []) h h' -> hframe h h'.
Proof. intros t h h' A x. rewrite (A x). destruct (h x); reflexivity. Qed.

Lemma told_shrinks : forall cb a b c T U, qinv a -> qinv b -> (forall q x, qh b q = Some x -> exists y, qh a q = Some y /\ q_nm y = q_nm x /\ q_ty y = q_ty x /\ q_cb y = q_cb x) ->
  told_ok a b T -> shrinks cb b c U -> told_ok a c (T ++ U).
Proof.
  intros cb a b c T U Ha Hb Sq (A1 & A2 & A3) [B1 B2 B3 B4 B5 B6 B7 B8]. unfold told_ok. rewrite app_length. split; [rewrite B1, A1, app_assoc; reflexivity|]. split; [lia|].
  apply Forall_app. split; [exact A3|]. eapply Forall_impl; [|exact B3]. intros p (q & x & E & C & F). destruct (Sq q x E) as (y & Ey & Y1 & Y2 & Y3).
  exists q, y. split; [exact Ey|]. split; [congruence|]. unfold asked_for in *. rewrite Y1, Y2. exact F.
Qed.

(* Callbacks are only made for queries that were asked three times. *)
Lemma query_loop_nocb : forall n s cb t frm cls q m best ret,
  (forall q x, qh s q = Some x -> 0 <= q_tries x /\ (q_next x <> 0 -> q_next x <= t -> q_tries x <> 3)) ->
  query_loop n s cb t frm cls q m best ret = query_loop n s (fun _ => false) t frm cls q m best ret.
Proof.
  induction n as [|n IH]; intros s cb t frm cls q m best ret K; [reflexivity|]. cbn [query_loop]. destruct q as [i|]; [|reflexivity]. unfold qget at 1 2.
  destruct (qh s i) as [x|] eqn:E; [|reflexivity]. cbn [bind]. destruct ((q_next x =? 0) || (t <? q_next x)) eqn:D.
  - destruct (q_link s i) as [o| | |]; cbn [bind]; try reflexivity. apply IH. exact K.
  - destruct (K i x E) as [K1 K2]. replace (q_tries x =? 3) with false by lia. destruct (q_link _ i) as [o| | |]; cbn [bind]; try reflexivity. apply IH.
    intros p y. unfold qset. cbn [set_qh qh]. destruct (Nat.eqb p i); [intros [= <-]; cbn [set_qnext q_tries q_next]; lia|apply K].
Qed.

Lemma out_query_nocb : forall d t cb frm cls m, qnum (Q d) -> (forall k, cb k = false) \/ unexhausted d t ->
  exists cb0, (forall k, cb0 k = false) /\ out_query (Q d) cb t frm cls m = out_query (Q d) cb0 t frm cls m.
Proof.
  intros d t cb frm cls m Hn [C|K]; [exists cb; auto|]. exists (fun _ => false). split; [reflexivity|]. unfold out_query.
  destruct (negb (checkq (Q d) =? 0) && (checkq (Q d) <=? t)); [|reflexivity]. destruct (query_ask _ _ _ _ _ _) as [[m1 best]| | |]; cbn [bind]; try reflexivity.
  rewrite query_loop_nocb; [reflexivity|]. intros q x E. destruct (Hn q x E) as [N1 N2]. split; [lia|]. intros A B. apply (K q x E); lia.
Qed.

Lemma query_loop_silent : forall n s cb t frm cls q m best ret s' m' best' ret',
  (forall q x, qh s q = Some x -> 0 <= q_tries x /\ (q_next x <> 0 -> q_next x <= t -> q_tries x <> 3)) ->
  query_loop n s cb t frm cls q m best ret = Ok (s', m', best', ret') -> told s' = told s /\ ncb s' = ncb s.
Proof.
  induction n as [|n IH]; intros s cb t frm cls q m best ret s' m' best' ret' K E; [discriminate|]. cbn [query_loop] in E. destruct q as [i|]; [|injection E as <- _ _ _; auto].
  apply bind_ok in E as (x & Ex & E). unfold qget in Ex. destruct (qh s i) as [x'|] eqn:Ei; [|discriminate]. injection Ex as ->. destruct ((q_next x =? 0) || (t <? q_next x)) eqn:D.
  - apply bind_ok in E as (o & _ & E). eapply IH; [|exact E]. exact K.
  - destruct (K i x Ei) as [K1 K2]. replace (q_tries x =? 3) with false in E by lia. apply bind_ok in E as (o & _ & E). apply IH in E; [exact E|].
    intros p y. unfold qset. cbn [set_qh qh]. destruct (Nat.eqb p i); [intros [= <-]; cbn [set_qnext q_tries q_next]; lia|apply K].
Qed.
Lemma out_query_silent : forall d t cb frm cls m s' m' ret', qnum (Q d) -> unexhausted d t -> out_query (Q d) cb t frm cls m = Ok (s', m', ret') -> told s' = told (Q d) /\ ncb s' = ncb (Q d).
Proof.
  intros d t cb frm cls m s' m' ret' Hn K E. unfold out_query in E. destruct (negb (checkq (Q d) =? 0) && (checkq (Q d) <=? t)); [|injection E as <- _ _; auto].
  apply bind_ok in E as ([m1 b1] & _ & E). apply bind_ok in E as ([[[s1 m2] b2] r2] & E1 & E). injection E as <- _ _. cbn [set_checkq told ncb]. eapply query_loop_silent; [|exact E1].
  intros q x Ex. destruct (Hn q x Ex) as [N1 N2]. split; [lia|]. intros A B. apply (K q x Ex); lia.
Qed.

Lemma queries_out_ok : forall d e, qinv (Q d) -> qnum (Q d) -> cpos (Q d) -> (forall k, e_cb e k = false) \/ unexhausted d (fst (e_now e)) ->
  exists q1 q' m ret T U, out_query (Q d) (e_cb e) (fst (e_now e)) (frame d) (class d) [] = Ok (q1, m, ret) /\
    (if expireall d <? fst (e_now e) then gc q1 (fst (e_now e)) (e_cb e) else Ok q1) = Ok q' /\
    qinv q' /\ queries_out d (fst (e_now e)) q1 m ret /\ qlist q1 = qlist (Q d) /\ shrinks (e_cb e) q1 q' U /\ ((forall k, e_cb e k = false) -> qh q' = qh q1 /\ qlist q' = qlist q1) /\ (unexhausted d (fst (e_now e)) -> told q1 = told (Q d) /\ ncb q1 = ncb (Q d)) /\ cache_kept (fst (e_now e)) (Q d) q' /\ told_ok (Q d) q' T /\
    (expireall d < fst (e_now e) -> forall i c, In c (centries q' i) -> fst (e_now e) < a_ttl (c_rr c)).
Proof.
  intros d e H Hn Hc Cb. set (t := fst (e_now e)).
  destruct (out_query_nocb d t (e_cb e) (frame d) (class d) [] Hn Cb) as (cb0 & Cb0 & Ecb).
  destruct (out_query_spec (Q d) cb0 t (frame d) (class d) [] H Hn Hc Cb0) as (q1 & T & m & ret & E1 & H1 & L1 & W1 & T1 & K1). cbn [app] in E1. rewrite <- Ecb in E1.
  assert (K1' : queries_out d t q1 m ret).
  { unfold queries_out. destruct (negb (checkq (Q d) =? 0) && (checkq (Q d) <=? t)); [exact K1|]. destruct K1 as (-> & -> & ->). auto. }
  assert (Sq : forall q x, qh q1 q = Some x -> exists y, qh (Q d) q = Some y /\ q_nm y = q_nm x /\ q_ty y = q_ty x /\ q_cb y = q_cb x).
  { intros q x E. unfold queries_out in K1'. destruct (negb (checkq (Q d) =? 0) && (checkq (Q d) <=? t)).
    - destruct K1' as (K & _). rewrite K in E. destruct (qh (Q d) q) as [y|]; [|discriminate]. injection E as <-. exists y. unfold after_turn.
      destruct (QryLoop.asks t y); [repeat split|]. destruct (rests t y); repeat split.
    - destruct K1' as (_ & _ & K & _). rewrite K in E. eauto. }
  assert (CK : cache_kept t (Q d) q1).
  { intros i. destruct (W1 i) as [-> | ->]; [left|right]; apply Forall2_refl'; apply crel_refl. }
  destruct (expireall d <? t) eqn:X.
  2:{ exists q1, q1, m, ret, T, []. split; [exact E1|]. split; [reflexivity|]. split; [exact H1|]. split; [exact K1'|]. split; [exact L1|]. split; [apply shrinks_refl|].
      split; [auto|]. split; [intros Ux; eapply out_query_silent; eauto|]. split; [exact CK|]. split; [exact T1|]. intros; lia. }
  destruct (gc_spec q1 t (e_cb e) H1) as (q' & U & E2 & H2 & S2 & F2 & Z2).
  exists q1, q', m, ret, (T ++ U), U. split; [exact E1|]. split; [exact E2|]. split; [exact H2|]. split; [exact K1'|]. split; [exact L1|]. split; [exact S2|].
  split; [intros Z; destruct (Z2 Z) as (? & ? & _); auto|]. split; [intros Ux; eapply out_query_silent; eauto|]. split; [|split].
  - intros i. right. specialize (F2 i). rewrite (swept_filter _ _ _ i W1) in F2. exact F2.
  - eapply told_shrinks; [exact H|exact H1|exact Sq|exact T1|exact S2].
  - intros _ i c I. specialize (F2 i). destruct (Forall2_in_r _ _ _ _ _ _ F2 I) as (c0 & I0 & _ & R0 & _). apply filter_In in I0 as [_ I0]. unfold alive in I0. rewrite R0. lia.
Qed.

Lemma asked_nil : forall cls h l, asked h l = [] -> asks cls h l ++ flat_map (at_rec h (fun X => if probed X then [] else tell_calls cls X)) l = [].
Proof.
  intros cls h l Z. induction l as [|x l IH]; [reflexivity|]. unfold asked, asks in *. cbn [filter flat_map] in *. unfold holds, at_rec, ask_calls in *.
  destruct (h x) as [X|]; cbn [app]; [|apply IH; exact Z]. destruct (probed X); cbn [negb] in Z; [|discriminate]. cbn [app]. apply IH. exact Z.
Qed.

Lemma with_expireall_same : forall d, with_expireall d (expireall d) = d.
Proof. intros []. reflexivity. Qed.

Lemma mdnsd_out_spec : forall d e qs, rinv (R d) qs -> qinv (Q d) -> qnum (Q d) -> cpos (Q d) -> (forall k, e_cb e k = false) \/ unexhausted d (fst (e_now e)) ->
  exists d' m ret qs', mdnsd_out d e = Ok (d', m, ret) /\ outcome d e qs d' m ret qs' /\ rinv (R d') qs' /\ qinv (Q d').
Proof.
  intros d e qs H HQ Hn Hc Cb. unfold mdnsd_out. cbv zeta. set (t := e_now e).
  change (R (with_now d t)) with (R d). change (frame (with_now d t)) with (frame d). change (class (with_now d t)) with (class d).
  change (disco (with_now d t)) with (disco d). change (is_shutdown (with_now d t)) with (is_shutdown d). change (d_family (with_now d t)) with (d_family d).
  destruct (uans (R d)) as [|u us] eqn:Eu.
  2:{ destruct (hp (R d) (u_r u)) as [X|] eqn:EX.
      2:{ exfalso. assert (I : In u (uans (R d))) by (rewrite Eu; left; reflexivity). apply (ri_ua _ _ H) in I. congruence. }
      destruct (out_unicast_spec (R d) qs t (frame d) (class d) u us X H Eu EX) as (s' & added & E1 & -> & H1 & G1).
      rewrite E1. cbn [bind]. do 4 eexists. split; [reflexivity|]. split; [eapply o_unicast; eassumption|]. split; [exact H1|exact HQ]. }
  destruct (out_answers (R d) qs t (frame d) (class d) (disco d) H Eu) as (N & restN & P & restP & A & restA & s2 & s3 & added & K). cbv zeta in K.
  destruct K as (En & Ep & Ea & Dp & Da & E2 & H2 & A2 & E3 & H3 & A3 & F2 & F3 & U2 & U3 & T1 & T2 & C2 & C3 & T3 & (seen' & E4) & G4 & B1 & B2 & B3).
  match goal with |- context [bind (r_out ?a ?b ?c ?dd ?ee ?f ?g ?hh ?i ?j) ?k] => set (first := r_out a b c dd ee f g hh i j) in * end.
  destruct first as [[[[s1 m1] seen1] ret1]| | |]; cbn [bind] in E2; try discriminate. cbn [bind]. rewrite E2. cbn [bind].
  destruct (is_shutdown d) eqn:Sd.
  { do 4 eexists. split; [reflexivity|]. split; [eapply o_goodbye; eauto|]. split; [exact H2|exact HQ]. }
  rewrite E3. cbn [bind]. rewrite E4. cbn [bind].
  assert (D : drained d t qs N restN P restP A restA) by (split; assumption).
  set (all := sent_of (disco d) (hp (R d)) N ++ P ++ sent_of (disco d) (hp (R d)) A) in *.
  destruct (zlen all =? 0) eqn:Z; cbn [negb].
  2:{ do 4 eexists. split; [reflexivity|]. split; [eapply o_answers; eauto|split; [exact H3|exact HQ]]. intros Q. rewrite Q in Z. rewrite zlen_nil in Z. discriminate. }
  apply zlen_zero in Z. unfold all in Z. apply app_eq_nil in Z as [Z1 Z]. apply app_eq_nil in Z as [Z2 Z3]. subst P. unfold all in *. rewrite Z1, Z3 in *. cbn [app] in *.
  cbn [calls_of flat_map app] in *. assert (Ep' : restP = qs Publish) by (symmetry; exact Ep). subst restP.
  assert (Ad : added = []).
  { destruct added as [|x r]; [reflexivity|]. exfalso. destruct G4 as (_ & _ & G). destruct (G [] x r eq_refl) as (X & _ & (a & Y & [] & _) & _). }
  subst added. cbn [extras flat_map]. apply after_nothing in A3.
  assert (Sh : stays (hp (R d)) [] = []) by reflexivity. rewrite Sh in *. cbn [app] in *.
  destruct (out_probe_spec s3 _ t (class d) [] H3) as (s4 & E5 & H5 & A5 & F5 & P5 & U5 & C5 & T5 & T6 & T7). rewrite T2 in *.
  set (qs3 := on Pause restA (on Publish (qs Publish) (on Now restN qs))) in *.
  assert (Qp : qs3 Probing = qs Probing) by (unfold qs3; rewrite !on_other by discriminate; reflexivity).
  assert (Qu : qs3 Publish = qs Publish) by (unfold qs3; rewrite on_other by discriminate; apply on_same).
  rewrite Qp in *. fold (probe_due (R d) qs t) in *. set (l := probe_due (R d) qs t) in *. cbn [app] in E5.
  assert (X3 : forall x, option_map nolink (hp s3 x) = option_map nolink (hp (R d) x)) by (intros x; symmetry; apply A3).
  assert (Ia : asked (hp s3) l = asked (hp (R d)) l) by (apply holds_ext; [intros X Y K; apply (f_equal negb); apply probed_nolink; exact K|intros; apply X3]).
  assert (Ir : ready (hp s3) l = ready (hp (R d)) l) by (apply holds_ext; [intros X Y; apply probed_nolink|intros; apply X3]).
  assert (Is : asks (class d) (hp s3) l = asks (class d) (hp (R d)) l) by (apply flat_ext; [apply ask_calls_nolink|intros; apply X3]).
  assert (It : flat_map (at_rec (hp s3) (fun X => if probed X then [] else tell_calls (class d) X)) l = flat_map (at_rec (hp (R d)) (fun X => if probed X then [] else tell_calls (class d) X)) l).
  { apply flat_ext; [|intros; apply X3]. intros X Y K. rewrite (probed_nolink _ _ K), (tell_calls_nolink _ _ _ K). reflexivity. }
  rewrite Ia, Is, It in E5. rewrite Ia in T6. rewrite Ir in T7. rewrite E5. cbn [bind].
  assert (A6 : after (upon l (probe_rec t)) (hp (R d)) (hp s4)).
  { intros x. rewrite (A5 x). pose proof (X3 x) as K. destruct (hp s3 x) as [Y|], (hp (R d) x) as [X|]; cbn [option_map] in K; try discriminate; [|reflexivity].
    unfold upon. destruct (mem x l); [|exact K]. unfold probe_rec.
    pose proof (f_equal (fun o => match o with Some y => y | None => nolink X end) K) as K'. cbn beta iota in K'.
    rewrite (probed_nolink _ _ K'). destruct (probed X); cbn [option_map]; f_equal.
    - exact (f_equal (fun z => set_modified (set_tries (set_unique z 5) 0) true) K').
    - exact (f_equal (fun z => set_sent (set_unique z (unique z + 1)) t) K'). }
  assert (T5' : t_pause s4 = t_pause (R d)) by congruence.
  assert (Dl : announce_due (R d) qs t = true -> l = []).
  { unfold l, probe_due, announce_due. destruct (qs Probing); [|discriminate]. intros _. destruct (tvdiff t (t_probe (R d)) <=? 0); reflexivity. }
  assert (T7' : t_publish s4 = if announce_due (R d) qs t then (fst t + 2, snd t) else match ready (hp (R d)) l with [] => t_publish (R d) | _ => t end).
  { rewrite T7, T3. destruct (announce_due (R d) qs t) eqn:Ad; [|reflexivity]. rewrite (Dl eq_refl). cbn [ready filter andb].
    unfold announce_due in Ad. destruct (qs Probing); [|discriminate]. destruct (qs Publish); [discriminate|reflexivity]. }
  assert (H5' : forall q, on Publish (rev (ready (hp (R d)) l) ++ qs Publish) (on Probing (if tvdiff t (t_probe (R d)) <=? 0 then asked (hp (R d)) l else qs Probing) (on Pause restA (on Now restN qs))) q =
                 (if tvdiff t (t_probe (R d)) <=? 0 then ask_queues (hp s3) [] l qs3 else qs3) q).
  { intros q. unfold ask_queues. rewrite Ia, Ir, Qu. unfold qs3. cbn [app]. destruct (tvdiff t (t_probe (R d)) <=? 0) eqn:Td.
    - destruct q; unfold on; reflexivity.
    - assert (L0 : l = []) by (unfold l, probe_due; rewrite Td; reflexivity). rewrite L0. destruct q; unfold on; reflexivity. }
  destruct (zlen (asked (hp (R d)) l) =? 0) eqn:Z; cbn [negb].
  2:{ do 3 eexists. exists (on Publish (rev (ready (hp (R d)) l) ++ qs Publish) (on Probing (asked (hp (R d)) l) (on Pause restA (on Now restN qs)))).
      split; [reflexivity|]. split; [|split; [|exact HQ]].
      - eapply o_probe with (N := N) (A := A); try eassumption; try reflexivity; try congruence.
        + intros Q0. fold t l in Q0. rewrite Q0, zlen_nil in Z. discriminate.
        + rewrite T6. destruct (asked (hp (R d)) l); [rewrite zlen_nil in Z; discriminate|reflexivity].
        + rewrite T7'. destruct (announce_due (R d) qs t) eqn:Ad; [|reflexivity]. exfalso. rewrite (Dl eq_refl) in Z. discriminate Z.
      - eapply rinv_ext; [exact H5|]. intros q. rewrite <- (H5' q). destruct (tvdiff t (t_probe (R d)) <=? 0) eqn:Td; [reflexivity|].
        exfalso. unfold l, probe_due in Z. rewrite Td in Z. discriminate Z. }
  apply zlen_zero in Z. rewrite Z in *.
  assert (M0 : asks (class d) (hp (R d)) l ++ flat_map (at_rec (hp (R d)) (fun X => if probed X then [] else tell_calls (class d) X)) l = []).
  { apply asked_nil. exact Z. }
  rewrite M0. destruct (queries_out_ok d e HQ Hn Hc Cb) as (q1 & q' & m & ret & T & U & Eq1 & Eq2 & Hq & Kq & Lq & Sq & Zq & Uq & CK & Tq & Gq). fold t in Eq1, Eq2, Kq, CK, Gq.
  change (Q (with_R (with_now d t) s4)) with (Q d). change (expireall (with_R (with_now d t) s4)) with (expireall d). rewrite Eq1. cbn [bind].
  assert (Fin : outcome d e qs (with_expireall (with_Q (with_R (with_now d t) s4) q') (if expireall d <? fst t then fst t + GC else expireall d)) (mkomsg (mcast (d_family d)) 0 false m) ret
      (on Publish (rev (ready (hp (R d)) l) ++ qs Publish) (on Probing (if tvdiff t (t_probe (R d)) <=? 0 then [] else qs Probing) (on Pause restA (on Now restN qs))))).
  { eapply o_query with (N := N) (A := A); try eassumption; try reflexivity; try congruence. }
  do 4 eexists. split; [|split; [exact Fin|]].
  - destruct (expireall d <? fst t).
    + rewrite Eq2. reflexivity.
    + injection Eq2 as ->. reflexivity.
  - split; [|exact Hq]. eapply rinv_ext; [exact H5|]. exact H5'.
Qed.
