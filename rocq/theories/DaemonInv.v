(* The invariant of the daemon, and that every legal call preserves it. *)
From Verif Require Import Base Lemmas Hash HashProofs Wire Rec Qry Out In Api RecInv RecSafe RecOps RecAddr OutSafe QryInv QryOps CacheOps QryReg QryLoop InSafe InLoop InResp OutPub OutProbe OutExtra OutAll OutSpec Shut.

(* ------------------------------------------------------------------ *)
(* mdnsd_in *)

Inductive arrival (d : daemon) (e : env) (m : message) (from : addr) (qs : queue -> list nat) : daemon -> Z -> (queue -> list nat) -> Prop :=
| a_closed : is_shutdown d = true -> arrival d e m from qs d 1 qs
| a_own : forall i tm, is_shutdown d = false -> own_addr d from || listed i from = true -> (i = ifs d \/ i = view d e) ->
    arrival d e m from qs (into (with_now d (e_now e)) (R d) i tm (received d)) 0 qs
| a_query : forall i0 tm0 d' qs', is_shutdown d = false -> own_addr d from || listed i0 from = false -> (i0 = ifs d \/ i0 = view d e) -> h_qr (m_header m) = 0 ->
    questions (into (with_now d (e_now e)) (R d) i0 tm0 (received d)) e from false (m_id m) (m_qd m) (m_an m) = Ok d' ->
    arrival d e m from qs d' 0 qs'
| a_response : forall i0 tm0 d' qs', is_shutdown d = false -> own_addr d from || listed i0 from = false -> (i0 = ifs d \/ i0 = view d e) -> h_qr (m_header m) <> 0 ->
    responses (into (with_now d (e_now e)) (R d) i0 tm0 (received d)) e from false (m_an m) = Ok d' ->
    arrival d e m from qs d' 0 qs'.

Definition calm (d : daemon) : Prop := qinv (Q d) /\ qnum (Q d) /\ cpos (Q d) /\ 0 <= fst (now d).

Lemma qnum_shrinks : forall cb s s' T, qnum s -> shrinks cb s s' T -> qnum s'.
Proof. intros cb s s' T H S q x E. apply (H q). apply (sh_qh _ _ _ _ S). exact E. Qed.

Lemma mdnsd_in_spec : forall d e m from qs, rinv (R d) qs -> calm d -> 0 <= fst (e_now e) -> wf_message m ->
  exists d' n qs', mdnsd_in d e m from = Ok (d', n) /\ arrival d e m from qs d' n qs' /\ rinv (R d') qs' /\ calm d' /\ is_shutdown d' = is_shutdown d.
Proof.
  intros d e m from qs H C N W. unfold mdnsd_in. destruct (is_shutdown d) eqn:Sd.
  { exists d, 1, qs. split; [reflexivity|]. split; [apply a_closed; exact Sd|]. split; [exact H|]. split; [exact C|exact Sd]. }
  cbv zeta. set (d0 := with_now d (e_now e)). destruct (is_local_spec d0 e from) as (i & tm & E & I). rewrite E.
  change (own_addr d0 from) with (own_addr d from). change (received d0) with (received d). change (R d0) with (R d).
  assert (I' : i = ifs d \/ i = view d e) by exact I. destruct C as (C1 & C2 & C3 & C4).
  destruct (own_addr d from || listed i from) eqn:L.
  { do 2 eexists. exists qs. split; [reflexivity|]. split; [apply a_own; auto|]. split; [exact H|]. split; [|exact Sd]. split; [exact C1|]. split; [exact C2|]. split; [exact C3|]. exact N. }
  set (d1 := into d0 (R d) i tm (received d)). destruct (h_qr (m_header m) =? 0) eqn:Qr.
  - destruct (questions_sound (m_qd m) d1 e from false (m_id m) (m_an m) qs H ltac:(discriminate)) as (s' & i' & tm' & L' & b & qs' & Cf & E' & H' & _).
    rewrite E'. cbn [bind]. do 2 eexists. exists qs'. split; [reflexivity|]. split; [eapply a_query; eauto; lia|]. split; [exact H'|]. split; [|exact Sd].
    split; [exact C1|]. split; [exact C2|]. split; [exact C3|]. exact N.
  - destruct (responses_sound (m_an m) d1 e from false qs H C1 N W ltac:(discriminate)) as (s' & q' & i' & tm' & L' & qs' & T & Cf & E' & I2 & H' & Hq & Sh & _ & _ & _ & _ & _ & _ & Ca & _).
    rewrite E'. cbn [bind]. do 2 eexists. exists qs'. split; [reflexivity|]. split; [eapply a_response; eauto; lia|]. split; [exact H'|]. split; [|exact Sd].
    split; [exact Hq|]. split; [eapply qnum_shrinks; [exact C2|exact Sh]|]. split; [|exact N].
    intros j c K. apply Ca in K as [(c0 & K & _ & R0 & _)|(a & Ia & _ & _ & Ta)]; [rewrite R0; exact (C3 j c0 K)|]. rewrite Ta. unfold new_ttl.
    pose proof (proj1 (Forall_forall _ _) W a Ia) as (W0 & _). pose proof (Z.div_pos (rr_ttl a) 2 W0 ltac:(lia)). cbn [d1 into d0 with_now now]. lia.
Qed.

(* ------------------------------------------------------------------ *)
(* mdnsd_sleep *)

Definition soon (t : tv) (X : mrec) : Z := fst (last_sent X) + a_ttl (rr X) - fst t.
(* The record at the head of each bucket *)
Definition heads (bs : list (list nat)) : list nat := flat_map (fun b => match b with [] => [] | r :: _ => [r] end) bs.

Lemma heads_in : forall bs x, In x (heads bs) -> In x (concat bs).
Proof.
  induction bs as [|b bs IH]; intros x I; [exact I|]. unfold heads in I. cbn [flat_map] in I. apply in_app_or in I as [I|I]; cbn [concat]; apply in_or_app; [|right; apply IH; exact I].
  left. destruct b as [|r b]; [destruct I|]. destruct I as [->|[]]. left. reflexivity.
Qed.

Lemma republish_spec : forall bs s qs t x0, rinv s qs -> (forall x, In x (heads bs) -> hp s x <> None) -> NoDup (heads bs) ->
  (forall k x, In x (qs k) -> k = Pause /\ ~ In x (heads bs)) ->
  exists s' x', republish s t bs x0 = Ok (s', x') /\
    rinv s' (on Pause (rev (filter (holds (hp s) (fun X => soon t X <=? 2)) (heads bs)) ++ qs Pause) qs) /\ sframe s s' /\
    x' <= x0 /\ (forall r X, In r (heads bs) -> hp s r = Some X -> x' <= soon t X) /\
    (x' = x0 \/ exists r X, In r (heads bs) /\ hp s r = Some X /\ x' = soon t X).
Proof.
  induction bs as [|b bs IH]; intros s qs t x0 H L Nd O.
  - exists s, x0. cbn [heads flat_map filter rev app]. split; [reflexivity|]. split; [|split; [apply sframe_refl|split; [lia|split; [intros r X []|auto]]]].
    eapply rinv_ext; [exact H|]. intros k. destruct (queue_dec k Pause) as [->|D]; [apply on_same|apply on_other; exact D].
  - destruct b as [|r b].
    + cbn [republish]. unfold heads in *. cbn [flat_map app] in *. apply IH; assumption.
    + unfold heads in *. cbn [flat_map app] in *. fold (heads bs) in *. cbn [republish].
      destruct (hp s r) as [X|] eqn:E; [|exfalso; apply (L r (or_introl eq_refl)); exact E]. rewrite (hget_some _ _ _ E). cbn [bind]. cbv zeta. fold (soon t X).
      apply NoDup_cons_iff in Nd as [Nr Nd].
      assert (S1 : exists s1, (if soon t X <=? 2 then r_push s Pause r else Ok s) = Ok s1 /\
        rinv s1 (on Pause ((if soon t X <=? 2 then [r] else []) ++ qs Pause) qs) /\ sframe s s1).
      { destruct (soon t X <=? 2).
        - destruct (r_push_spec s qs Pause r (ri_q _ _ H)) as (s1 & E1 & K1 & F1); [congruence|intros k D K; apply O in K as [K _]; contradiction|].
          exists s1. split; [exact E1|]. split; [|exact F1]. destruct (in_dec Nat.eq_dec r (qs Pause)) as [K|_].
          { exfalso. apply O in K as [_ K]. apply K. left. reflexivity. }
          eapply rinv_frame; [exact H|exact K1|exact F1| |]; intros y; rewrite on_other by discriminate; reflexivity.
        - exists s. split; [reflexivity|]. split; [|apply sframe_refl]. cbn [app]. eapply rinv_ext; [exact H|]. intros k. destruct (queue_dec k Pause) as [->|D]; [apply on_same|apply on_other; exact D]. }
      destruct S1 as (s1 & E1 & H1 & F1). rewrite E1. cbn [bind]. set (qs1 := on Pause _ qs) in *. set (x1 := if soon t X <? x0 then soon t X else x0).
      destruct (IH s1 qs1 t x1 H1) as (s' & x' & E' & H' & F' & B1 & B2 & B3).
      * intros y I. destruct F1 as [_ F1]. specialize (F1 y). destruct (hp s1 y) as [Y|]; [discriminate|]. destruct (hp s y) eqn:Ey; [discriminate|]. exfalso. exact (L y (or_intror I) Ey).
      * exact Nd.
      * intros k y K. unfold qs1 in K. destruct (queue_dec k Pause) as [->|D].
        -- rewrite on_same in K. split; [reflexivity|]. apply in_app_or in K as [K|K]; [|apply O in K as [_ K]; intros J; apply K; right; exact J].
           destruct (soon t X <=? 2); [|destruct K]. destruct K as [<-|[]]. exact Nr.
        -- rewrite on_other in K by exact D. apply O in K as [K _]. contradiction.
      * assert (FE : forall y, option_map nolink (hp s1 y) = option_map nolink (hp s y)) by (intros y; symmetry; apply F1).
        assert (SE : forall Y Z, nolink Y = nolink Z -> soon t Y = soon t Z) by (intros Y Z K; apply nolink_fields in K as (K1 & _ & _ & _ & _ & K2); unfold soon; rewrite K1, K2; reflexivity).
        exists s', x'. split; [exact E'|]. split; [|split; [eapply sframe_trans; eauto|]].
        -- eapply rinv_ext; [exact H'|]. intros k. unfold qs1. cbn [filter]. unfold holds at 1. rewrite E.
           replace (filter (holds (hp s1) (fun Y => soon t Y <=? 2)) (heads bs)) with (filter (holds (hp s) (fun Y => soon t Y <=? 2)) (heads bs)).
           2:{ symmetry. apply holds_ext; [intros Y Z K; rewrite (SE _ _ K); reflexivity|intros; apply FE]. }
           destruct (queue_dec k Pause) as [->|D]; [rewrite !on_same|rewrite !on_other by exact D; reflexivity].
           destruct (soon t X <=? 2); cbn [rev app]; [rewrite <- app_assoc|]; reflexivity.
        -- assert (X1 : x1 <= x0 /\ x1 <= soon t X /\ (x1 = x0 \/ x1 = soon t X)) by (unfold x1; destruct (soon t X <? x0) eqn:?; lia).
           split; [lia|]. split.
           ++ intros y Y [<-|I] EY; [replace Y with X in * by congruence; lia|]. specialize (FE y). rewrite EY in FE. destruct (hp s1 y) as [Z|] eqn:EZ; [|discriminate].
              rewrite <- (SE Z Y) by exact (f_equal (fun o => match o with Some y => y | None => nolink Y end) FE). apply (B2 y Z I EZ).
           ++ destruct B3 as [->|(y & Y & I & EY & ->)].
              ** destruct X1 as (_ & _ & [->| ->]); [auto|]. right. exists r, X. split; [left; reflexivity|]. auto.
              ** right. specialize (FE y). rewrite EY in FE. destruct (hp s y) as [Z|] eqn:EZ; [|discriminate]. exists y, Z. split; [right; exact I|]. split; [exact EZ|].
                 apply SE. exact (f_equal (fun o => match o with Some y => y | None => nolink Z end) FE).
Qed.

Lemma heads_nodup : forall bs, NoDup (concat bs) -> NoDup (heads bs).
Proof.
  induction bs as [|b bs IH]; intros N; [constructor|]. cbn [concat] in N. unfold heads. cbn [flat_map]. fold (heads bs). destruct b as [|r b]; cbn [app] in *.
  - apply IH. exact N.
  - apply NoDup_cons_iff in N as [N1 N2]. constructor.
    + intros I. apply N1. apply in_or_app. right. apply heads_in. exact I.
    + apply IH. clear -N2. induction b as [|x b IHb]; [exact N2|]. apply IHb. cbn [app] in N2. apply NoDup_cons_iff in N2. apply N2.
Qed.

Definition later (t : tv) (t' : tv) : tv := ret_sleep (0, if 0 <? tvdiff t t' then tvdiff t t' else 0).

Inductive rest (d : daemon) (e : env) (qs : queue -> list nat) : daemon -> tv -> (queue -> list nat) -> Prop :=
| s_now : uans (R d) <> [] \/ qs Now <> [] -> rest d e qs d (0, 0) qs
| s_pause : uans (R d) = [] -> qs Now = [] -> qs Pause <> [] -> rest d e qs (with_now d (e_now e)) (later (e_now e) (t_pause (R d))) qs
| s_probe : uans (R d) = [] -> qs Now = [] -> qs Pause = [] -> qs Probing <> [] -> rest d e qs (with_now d (e_now e)) (later (e_now e) (t_probe (R d))) qs
| s_publish : uans (R d) = [] -> qs Now = [] -> qs Pause = [] -> qs Probing = [] -> qs Publish <> [] ->
    rest d e qs (with_now d (e_now e)) (later (e_now e) (t_publish (R d))) qs
| s_query : uans (R d) = [] -> (forall k, qs k = []) -> checkq (Q d) <> 0 ->
    rest d e qs (with_now d (e_now e)) (if 0 <? checkq (Q d) - fst (e_now e) then checkq (Q d) - fst (e_now e) else 0, 0) qs
| s_sweep : uans (R d) = [] -> (forall k, qs k = []) -> checkq (Q d) = 0 -> expireall d < fst (e_now e) -> rest d e qs (with_now d (e_now e)) (0, 0) qs
| s_idle : forall s' x sec, uans (R d) = [] -> (forall k, qs k = []) -> checkq (Q d) = 0 -> fst (e_now e) <= expireall d ->
    sec = (if 2 <? x then x - 2 else 0) -> t_pause s' = (fst (e_now e) + sec, snd (t_pause (R d))) ->
    hframe (hp (R d)) (hp s') -> pub s' = pub (R d) -> fresh s' = fresh (R d) -> uans s' = uans (R d) -> t_probe s' = t_probe (R d) -> t_publish s' = t_publish (R d) -> conflicts s' = conflicts (R d) ->
    x <= expireall d - fst (e_now e) -> (forall r X, In r (heads (pub (R d))) -> hp (R d) r = Some X -> x <= soon (e_now e) X) ->
    (x = expireall d - fst (e_now e) \/ exists r X, In r (heads (pub (R d))) /\ hp (R d) r = Some X /\ x = soon (e_now e) X) ->
    rest d e qs (with_R (with_now d (e_now e)) s') (sec, 0)
      (on Pause (rev (filter (holds (hp (R d)) (fun X => soon (e_now e) X <=? 2)) (heads (pub (R d))))) qs).

Lemma head_nil : forall s qs q, qok s qs -> head s q = hd_error (qs q).
Proof. intros s qs q H. pose proof (qk_chain _ _ H q) as C. exact (chain_hd _ _ _ C). Qed.

Lemma on_list_in : forall h l p r, chain h p l -> (on_list h p r <-> In r l).
Proof.
  intros h l. induction l as [|x l IH]; intros p r C; cbn [chain] in C.
  - subst p. split; [intros J; inversion J|intros []].
  - destruct C as (-> & X & EX & C). split.
    + intros J. inversion J as [y Ey|y Y z EY J' Ey Ez]; subst; [left; reflexivity|]. right. rewrite EX in EY. injection EY as <-. apply (IH _ _ C). exact J'.
    + intros [->|J]; [constructor|]. econstructor; [exact EX|]. apply (IH _ _ C). exact J.
Qed.
Lemma unlinked_off : forall s qs r k, rinv s qs -> unlinked s r -> ~ In r (qs k).
Proof. intros s qs r k H U J. apply (U k). apply (on_list_in _ _ _ _ (qk_chain _ _ (ri_q _ _ H) k)). exact J. Qed.
Lemma off_unlinked : forall s qs r, rinv s qs -> (forall k, ~ In r (qs k)) -> unlinked s r.
Proof. intros s qs r H U k J. apply (U k). apply (on_list_in _ _ _ _ (qk_chain _ _ (ri_q _ _ H) k)). exact J. Qed.
Lemma head_empty : forall s qs q, qok s qs -> head s q = None -> qs q = [].
Proof. intros s qs q H E. rewrite (head_nil s qs q H) in E. destruct (qs q); [reflexivity|discriminate]. Qed.

Lemma mdnsd_sleep_spec : forall d e qs, rinv (R d) qs -> exists d' t qs', mdnsd_sleep d e = Ok (d', t) /\ rest d e qs d' t qs' /\ rinv (R d') qs'.
Proof.
  intros d e qs H. unfold mdnsd_sleep. pose proof (ri_q _ _ H) as HQ.
  pose proof (head_nil _ _ Now HQ) as E1. pose proof (head_nil _ _ Pause HQ) as E2. pose proof (head_nil _ _ Probing HQ) as E3. pose proof (head_nil _ _ Publish HQ) as E4. cbn [head] in E1, E2, E3, E4.
  destruct (uans (R d)) as [|u us] eqn:Eu.
  2:{ exists d, (0, 0), qs. split; [reflexivity|]. split; [|exact H]. apply s_now. left. congruence. }
  destruct (qs Now) as [|x l] eqn:Qn.
  2:{ rewrite E1. cbn [hd_error]. exists d, (0, 0), qs. split; [reflexivity|]. split; [|exact H]. apply s_now. right. congruence. }
  rewrite E1. cbn [hd_error]. cbv zeta. set (d0 := with_now d (e_now e)). change (R d0) with (R d). rewrite E2, E3, E4.
  destruct (qs Pause) as [|x l] eqn:Qp; cbn [hd_error].
  2:{ do 2 eexists. exists qs. split; [reflexivity|]. split; [|exact H]. apply s_pause; congruence. }
  destruct (qs Probing) as [|x l] eqn:Qb; cbn [hd_error].
  2:{ do 2 eexists. exists qs. split; [reflexivity|]. split; [|exact H]. apply s_probe; congruence. }
  destruct (qs Publish) as [|x l] eqn:Qu; cbn [hd_error].
  2:{ do 2 eexists. exists qs. split; [reflexivity|]. split; [|exact H]. apply s_publish; congruence. }
  assert (Z : forall k, qs k = []) by (intros []; assumption).
  change (Q d0) with (Q d). change (expireall d0) with (expireall d). change (now d0) with (e_now e).
  destruct (checkq (Q d) =? 0) eqn:Ck; cbn [negb].
  2:{ do 2 eexists. exists qs. split; [reflexivity|]. split; [|exact H].
      replace (ret_sleep (if 0 <? checkq (Q d) - fst (e_now e) then checkq (Q d) - fst (e_now e) else 0, 0)) with (if 0 <? checkq (Q d) - fst (e_now e) then checkq (Q d) - fst (e_now e) else 0, 0) by reflexivity.
      apply s_query; [exact Eu|exact Z|]. apply Z.eqb_neq. exact Ck. }
  destruct (expireall d - fst (e_now e) <? 0) eqn:Ex.
  { do 2 eexists. exists qs. split; [reflexivity|]. split; [|exact H]. apply s_sweep; [exact Eu|exact Z|lia|lia]. }
  destruct (republish_spec (pub (R d)) (R d) qs (e_now e) (expireall d - fst (e_now e)) H) as (s' & x' & E' & H' & [(F1 & F2 & F3 & F4 & F5 & F6 & F7) F0] & B1 & B2 & B3).
  - intros y I. apply (pk_live _ (ri_p _ _ H)). apply heads_in. exact I.
  - apply heads_nodup. apply (pk_nodup _ (ri_p _ _ H)).
  - intros k y I. rewrite Z in I. destruct I.
  - rewrite E'. cbn [bind]. do 2 eexists. eexists. split; [reflexivity|].
    change (ret_sleep (if 2 <? x' then x' - 2 else 0, 0)) with (if 2 <? x' then x' - 2 else 0, 0).
    rewrite Z, app_nil_r in H'. split.
    + eapply s_idle with (x := x'); try eassumption; try reflexivity; try lia. cbn [t_pause set_tpause]. congruence.
    + eapply rinv_other; [exact H'|reflexivity..|intros []; reflexivity].
Qed.

(* ------------------------------------------------------------------ *)
(* The invariant *)

Record dinv (d : daemon) (qs : queue -> list nat) : Prop := mkdinv {
  di_r : rinv (R d) qs; di_c : calm d
}.

Lemma calm_new : forall t cls frm, 0 <= fst t -> calm (mdnsd_new t cls frm).
Proof.
  intros t cls frm N. split; [apply new_qinv|]. split; [intros q x E; discriminate|]. split; [|exact N]. intros i c I.
  cbn [mdnsd_new Q] in I. unfold centries, qrys_new in I. cbn [cache] in I. exfalso.
  assert (K : forall n i, nth i (repeat ([] : list cached) n) [] = []) by (induction n as [|n IH]; intros [|j]; cbn [repeat nth]; auto).
  rewrite K in I. exact I.
Qed.

Lemma qnum_turn : forall s s' t, qnum s -> cpos s -> 0 <= t -> (forall q, qh s' q = option_map (after_turn s t) (qh s q)) -> qnum s'.
Proof.
  intros s s' t Hn Hc T E q x K. rewrite E in K. destruct (qh s q) as [y|] eqn:Ey; [|discriminate]. injection K as <-. destruct (Hn q y Ey) as [H1 H2].
  unfold after_turn, QryLoop.asks, rests. destruct ((0 <? q_next y) && (q_next y <=? t) && (q_tries y <? 3)) eqn:A; cbn [q_tries q_next set_qnext]; [lia|].
  destruct ((0 <? q_next y) && (q_next y <=? t) && (q_tries y =? 3)); cbn [q_tries q_next set_qnext]; [|lia].
  split; [lia|]. apply reset_try_pos. intros c I. apply filter_In in I as [I _]. exact (Hc _ c I).
Qed.

Lemma outcome_calm : forall d e qs d' m ret qs', calm d -> 0 <= fst (e_now e) -> qinv (Q d') -> outcome d e qs d' m ret qs' -> calm d' /\ is_shutdown d' = is_shutdown d.
Proof.
  intros d e qs d' m ret qs' (C1 & C2 & C3 & C4) N Hq O. destruct O; (split; [|reflexivity]).
  1-4: split; [exact C1|]; split; [exact C2|]; split; [exact C3|]; exact N.
  split; [exact Hq|]. cbn [with_expireall with_Q with_R with_now Q now] in *. split; [|split; [|exact N]].
  - eapply qnum_shrinks; [|eassumption].
    lazymatch goal with K : queries_out _ _ _ _ _ |- _ => unfold queries_out in K; destruct (_ && _); [destruct K as (K1 & _); eapply qnum_turn; eauto|destruct K as (_ & _ & K1 & _)] end.
    intros q x Ex. rewrite K1 in Ex. eapply C2; eauto.
  - intros i c I. match goal with K : cache_kept _ _ _ |- _ => destruct (K i) as [F|F] end; destruct (Forall2_in_r _ _ _ _ _ _ F I) as (c0 & I0 & _ & R0 & _); rewrite R0; [eapply C3; exact I0|].
    apply filter_In in I0 as [I0 _]. eapply C3; exact I0.
Qed.

Lemma rest_calm : forall d e qs d' t qs', calm d -> 0 <= fst (e_now e) -> rest d e qs d' t qs' -> calm d' /\ is_shutdown d' = is_shutdown d.
Proof. intros d e qs d' t qs' (C1 & C2 & C3 & C4) N O. destruct O; (split; [split; [exact C1|]; split; [exact C2|]; split; [exact C3|]|reflexivity]); assumption. Qed.

Lemma live_some : forall d r, live d r -> exists X, hp (R d) r = Some X.
Proof. intros d r L. unfold live in L. destruct (hp (R d) r) as [X|]; [eauto|contradiction]. Qed.

Lemma step_ok : forall d e o qs, dinv d qs -> legal d e o -> exists d' x qs', step d e o = Ok (d', x) /\ dinv d' qs'.
Proof.
  intros d e o qs [H C] [N L].
  assert (RW : forall s qs', rinv s qs' -> dinv (with_R d s) qs') by (intros s qs' K; split; [exact K|exact C]).
  assert (Rset : forall r X f, hp (R d) r = Some X -> keeps_id f -> exists d' x qs', on_recs d (mdnsd_set (R d) (now d) r f) = Ok (d', x) /\ dinv d' qs').
  { intros r X f E K. destruct (mdnsd_set_inv (R d) qs (now d) r f X H K E) as (s' & qs' & Y & E' & H' & _). unfold on_recs. rewrite E'. cbn [bind]. eauto 6. }
  assert (Ron : forall y, (exists s' qs', y = Ok s' /\ rinv s' qs') -> exists d' x qs', on_recs d y = Ok (d', x) /\ dinv d' qs').
  { intros y (s' & qs' & -> & H'). unfold on_recs. cbn [bind]. eauto 6. }
  assert (Rall : forall ty i, is_zero i = false \/ (forall r X, hp (R d) r = Some X -> a_type (rr X) = ty -> unlinked (R d) r) -> exists s' qs', set_all (R d) (now d) (concat (pub (R d))) ty i = Ok s' /\ rinv s' qs').
  { intros ty i K. destruct (is_zero i) eqn:Zi; [|eapply set_all_inv; [exact H|apply pub_live; apply (ri_p _ _ H)|exact Zi]].
    destruct K as [?|K]; [discriminate|]. eapply set_all_zero; [exact H|apply pub_live; apply (ri_p _ _ H)|apply (pk_nodup _ (ri_p _ _ H))| |exact Zi].
    intros k x X _ EX Ty. exact (unlinked_off _ _ _ k H (K x X EX Ty)). }
  destruct o; cbn [step].
  - unfold on_new. cbn [bind]. destruct (mdnsd_shared (R d) host type ttl) as [s' r] eqn:E. destruct (mdnsd_shared_inv _ _ _ _ _ _ _ H E) as (H' & _). eauto 6.
  - destruct (mdnsd_unique_inv (R d) qs (now d) host type ttl cb H L) as (s' & E & H' & _). unfold on_new. rewrite E. cbn [bind]. eauto 6.
  - apply live_some in L as (X & E). eapply Rset; [exact E|apply keeps_raw].
  - apply live_some in L as (X & E). eapply Rset; [exact E|apply keeps_host].
  - apply live_some in L as (X & E). eapply Rset; [exact E|apply keeps_ip].
  - apply live_some in L as (X & E). eapply Rset; [exact E|apply keeps_ip6].
  - apply live_some in L as (X & E). eapply Rset; [exact E|apply keeps_srv].
  - apply live_some in L as (X & E). apply Ron. destruct (mdnsd_done_inv (R d) qs (now d) r X H E) as (s' & qs' & E' & H' & _). eauto.
  - apply Ron. apply (update_addresses_inv _ qs). exact H.
  - apply Ron. apply (update_addresses_inv _ qs). exact H.
  - apply Ron. apply (set_interface_addresses_inv _ qs). exact H.
  - destruct (bytes_eqb (d_addr d) i); [exists d, RUnit, qs; split; [reflexivity|split; assumption]|].
    destruct (Rall QTYPE_A i L) as (s' & qs' & E & H'). rewrite E. cbn [bind].
    do 2 eexists. exists qs'. split; [reflexivity|]. split; [exact H'|exact C].
  - destruct (bytes_eqb (d_addr6 d) i); [exists d, RUnit, qs; split; [reflexivity|split; assumption]|].
    destruct (Rall QTYPE_AAAA i L) as (s' & qs' & E & H'). rewrite E. cbn [bind].
    do 2 eexists. exists qs'. split; [reflexivity|]. split; [exact H'|exact C].
  - do 2 eexists. exists qs. split; [reflexivity|]. split; [exact H|exact C].
  - do 2 eexists. exists qs. split; [reflexivity|]. split; [exact H|exact C].
  - destruct L as (L1 & L2 & L3). destruct (shutdown_recs_ok (R d) qs H) as (s' & E & H' & _); [eapply head_empty; [exact (ri_q _ _ H)|assumption]..|]. rewrite E. cbn [bind].
    do 2 eexists. eexists. split; [reflexivity|]. split; [exact H'|exact C].
  - destruct (records_clear_ok (R d) qs H) as (s' & E & H' & _). unfold on_recs. rewrite E. cbn [bind]. eauto 6.
  - destruct C as (C1 & C2 & C3 & C4). destruct (mdnsd_query_spec (Q d) (fst (now d)) host type answer C1) as (q' & o & E & Hq & Qf & Ef & F & _). rewrite E. cbn [bind].
    do 2 eexists. exists qs. split; [reflexivity|]. split; [exact H|]. split; [exact Hq|]. split; [|split; [|exact C4]].
    + intros q x Ex. cbn [with_Q Q] in Ex. unfold query_effect in Ef. destruct o as [p|], answer as [cb|].
      * destruct Ef as (y & Ey & Ey' & Eo & _). destruct (Nat.eq_dec q p) as [->|D].
        -- rewrite Ey' in Ex. injection Ex as <-. apply (C2 p y Ey).
        -- rewrite (Eo q D) in Ex. exact (C2 q x Ex).
      * destruct Ef as (Ey & Eo & _). destruct (Nat.eq_dec q p) as [->|D]; [congruence|]. rewrite (Eo q D) in Ex. exact (C2 q x Ex).
      * destruct Ef as (Ey & Eo & _). destruct (Nat.eq_dec q (qfresh (Q d))) as [->|D].
        -- rewrite Ey in Ex. injection Ex as <-. cbn [q_tries q_next]. lia.
        -- rewrite (Eo q D) in Ex. exact (C2 q x Ex).
      * subst q'. exact (C2 q x Ex).
    + intros i c I. destruct (Forall2_in_r _ _ _ _ _ _ (F i) I) as (c0 & I0 & _ & R0). rewrite R0. exact (C3 i c0 I0).
  - destruct (mdnsd_in_spec d e m from qs H C N L) as (d' & n & qs' & E & _ & H' & C' & S'). rewrite E. cbn [bind]. do 2 eexists. exists qs'. split; [reflexivity|]. split; [exact H'|exact C'].
  - destruct C as (C1 & C2 & C3 & C4). destruct (mdnsd_out_spec d e qs H C1 C2 C3 L) as (d' & m & ret & qs' & E & O & H' & Hq). rewrite E. cbn [bind].
    destruct (outcome_calm d e qs d' m ret qs') as [C' S']; [split; [|split; [|split]]; assumption|exact N|exact Hq|exact O|]. do 2 eexists. exists qs'. split; [reflexivity|]. split; [exact H'|exact C'].
  - destruct (mdnsd_sleep_spec d e qs H) as (d' & t & qs' & E & O & H'). rewrite E. cbn [bind].
    destruct (rest_calm d e qs d' t qs' C N O) as [C' S']. do 2 eexists. exists qs'. split; [reflexivity|]. split; [exact H'|exact C'].
  - do 2 eexists. exists qs. split; [reflexivity|]. split; [exact H|exact C].
Qed.

Lemma reach_inv : forall d, reach d -> exists qs, dinv d qs.
Proof.
  intros d K. induction K as [t cls frm N|d e o d' x K (qs & IH) L E].
  - exists (fun _ => []). split; [apply new_rinv|apply calm_new; exact N].
  - destruct (step_ok d e o qs IH L) as (d2 & y & qs' & E' & I'). rewrite E in E'. injection E' as <- <-. eauto.
Qed.

Lemma reach_ok : forall d e o, reach d -> legal d e o -> exists d' x, step d e o = Ok (d', x).
Proof. intros d e o K L. destruct (reach_inv d K) as (qs & H). destruct (step_ok d e o qs H L) as (d' & x & _ & E & _). eauto. Qed.
