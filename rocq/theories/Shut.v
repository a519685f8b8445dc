(* mdnsd_shutdown, and withdrawing every address: records are linked to the
   queue of immediate answers without looking where they are. *)
From Verif Require Import Base Lemmas Wire Hash Rec RecInv RecSafe RecOps RecAddr.

Lemma raw_push : forall s qs r X Y, rinv s qs -> hp s r = Some X -> link Y = a_now s -> a_name (rr Y) = a_name (rr X) ->
  urec (In r (qs Probing)) (In r (qs Publish)) Y -> (forall k, ~ In r (qs k)) ->
  rinv (set_head (set_hp s (hset (hp s) r Y)) Now (Some r)) (on Now (r :: qs Now) qs).
Proof.
  intros s qs r X Y [H HP HU HA] E L Nm U O. split.
  - split.
    + intros x Hx. cbn [hp set_hp set_head fresh] in *. apply (qk_fresh _ _ H). destruct (Nat.eq_dec x r) as [->|D]; [congruence|]. rewrite hset_other in Hx by exact D. exact Hx.
    + intros k. cbn [hp set_hp set_head]. destruct (queue_dec k Now) as [->|N].
      * rewrite head_set_same, on_same. cbn [chain]. split; [reflexivity|]. eexists. split; [apply hset_same|].
        rewrite L. eapply chain_ext; [|apply (qk_chain _ _ H Now)]. intros x Hx. apply hset_other. intros ->. exact (O Now Hx).
      * rewrite head_set_other, head_hp, on_other by exact N. eapply chain_ext; [|apply (qk_chain _ _ H)].
        intros x Hx. apply hset_other. intros ->. exact (O k Hx).
    + intros k. destruct (queue_dec k Now) as [->|N].
      * rewrite on_same. constructor; [apply O|apply (qk_nodup _ _ H)].
      * rewrite on_other by exact N. apply (qk_nodup _ _ H).
    + assert (W : forall p x, In x (on Now (r :: qs Now) qs p) -> In x (qs p) \/ (x = r /\ p = Now)).
      { intros p x. destruct (queue_dec p Now) as [->|N].
        - rewrite on_same. cbn [In]. intros [->|?]; auto.
        - rewrite on_other by exact N. auto. }
      intros p k x A1 A2. apply W in A1. apply W in A2. destruct A1 as [A1|[-> ->]], A2 as [A2|[D1 D2]]; try congruence.
      * apply (qk_disj _ _ H p k x); assumption.
      * subst. exfalso. exact (O p A1).
      * exfalso. exact (O k A2).
  - eapply (pok_frame (set_hp s (hset (hp s) r Y))); [eapply pok_set; eauto|reflexivity|apply hframe_refl].
  - intros x Z EZ. rewrite !on_other by discriminate. cbn [hp set_head set_hp] in EZ. exact (uok_set s qs r Y HU U x Z EZ).
  - intros u I. cbn [uans set_head set_hp] in I. exact (uaok_set s r Y HA u I).
Qed.

(* The record when it is withdrawn at once *)
Definition expired (X : mrec) : mrec := set_rr X (set_ttl (rr X) 0).

Lemma urec_expired : forall A B X o, urec A B X -> urec A B (set_link (expired X) o).
Proof. intros A B X o [U1 U2 U3 U4 U5 U6 U7]. split; assumption. Qed.

Lemma shutdown_all_ok : forall l s qs, rinv s qs -> all_live (hp s) l -> NoDup l -> (forall k x, In x l -> ~ In x (qs k)) ->
  exists s', shutdown_all s l = Ok s' /\ rinv s' (on Now (rev l ++ qs Now) qs) /\ pub s' = pub s /\ fresh s' = fresh s /\ uans s' = uans s /\ conflicts s' = conflicts s /\
    t_pause s' = t_pause s /\ t_probe s' = t_probe s /\ t_publish s' = t_publish s /\
    (forall x, option_map nolink (hp s' x) = if in_dec Nat.eq_dec x l then option_map (fun X => nolink (expired X)) (hp s x) else option_map nolink (hp s x)).
Proof.
  induction l as [|r l IH]; intros s qs H L N O.
  - exists s. split; [reflexivity|]. split; [|repeat split]. cbn [rev app]. eapply rinv_ext; [exact H|]. intros k. destruct (queue_dec k Now) as [->|D]; [apply on_same|apply on_other; exact D].
  - apply all_live_cons in L as [(X & E) L]. apply NoDup_cons_iff in N as [Nr N]. cbn [shutdown_all]. rewrite (hget_some _ _ _ E). cbn [bind].
    set (Y := set_link (set_rr X (set_ttl (rr X) 0)) (a_now s)).
    assert (H1 : rinv (set_head (set_hp s (hset (hp s) r Y)) Now (Some r)) (on Now (r :: qs Now) qs)).
    { eapply raw_push; [exact H|exact E|reflexivity|reflexivity|apply urec_expired; apply (ri_u _ _ H r X E)|]. intros k. apply O. left. reflexivity. }
    set (s1 := set_head (set_hp s (hset (hp s) r Y)) Now (Some r)) in *.
    destruct (IH s1 _ H1) as (s' & E' & H' & P1 & P2 & P3 & P4 & P5 & P6 & P7 & P8).
    + intros x I. cbn [s1 hp set_head set_hp]. destruct (Nat.eq_dec x r) as [->|D]; [contradiction|]. rewrite hset_other by exact D. apply L. exact I.
    + exact N.
    + intros k x I K. destruct (queue_dec k Now) as [->|D].
      * rewrite on_same in K. destruct K as [->|K]; [contradiction|]. exact (O Now x (or_intror I) K).
      * rewrite on_other in K by exact D. exact (O k x (or_intror I) K).
    + exists s'. split; [exact E'|]. split.
      { eapply rinv_ext; [exact H'|]. intros k. destruct (queue_dec k Now) as [->|D]; [rewrite !on_same; cbn [rev]; rewrite <- app_assoc; reflexivity|rewrite !on_other by exact D; reflexivity]. }
      cbn [s1 set_head set_hp pub fresh uans conflicts t_pause t_probe t_publish hp] in *. repeat (split; [assumption|]). intros x. rewrite P8.
      destruct (in_dec Nat.eq_dec x l) as [I|I]; (destruct (in_dec Nat.eq_dec x (r :: l)) as [J|J]); cbn [In] in J.
      * rewrite hset_other; [reflexivity|]. intros ->. contradiction.
      * exfalso. apply J. right. exact I.
      * destruct J as [<-|J]; [|contradiction]. rewrite hset_same, E. reflexivity.
      * rewrite hset_other; [reflexivity|]. intros ->. apply J. left. reflexivity.
Qed.

Lemma rinv_drop_now : forall s qs, rinv s qs -> rinv (set_head s Now None) (on Now [] qs).
Proof.
  intros s qs [H HP HU HA]. split.
  - split; [exact (qk_fresh _ _ H)| | |].
    + intros k. destruct (queue_dec k Now) as [->|D]; [rewrite on_same; reflexivity|]. rewrite on_other, head_set_other by exact D. exact (qk_chain _ _ H k).
    + intros k. destruct (queue_dec k Now) as [->|D]; [rewrite on_same; constructor|]. rewrite on_other by exact D. apply (qk_nodup _ _ H).
    + intros p k x A B. assert (W : forall j, In x (on Now [] qs j) -> In x (qs j)).
      { intros j. destruct (queue_dec j Now) as [->|D]; [rewrite on_same; intros []|rewrite on_other by exact D; auto]. }
      apply (qk_disj _ _ H p k x); apply W; assumption.
  - eapply pok_frame; [exact HP|reflexivity|apply hframe_refl].
  - intros x X E. rewrite !on_other by discriminate. exact (HU x X E).
  - exact HA.
Qed.

Lemma shutdown_recs_ok : forall s qs, rinv s qs -> qs Probing = [] -> qs Pause = [] -> qs Publish = [] ->
  exists s', shutdown_recs s = Ok s' /\ rinv s' (on Now (rev (concat (pub s))) (fun _ => [])) /\ pub s' = pub s /\ fresh s' = fresh s /\ uans s' = uans s /\ conflicts s' = conflicts s /\
    t_pause s' = t_pause s /\ t_probe s' = t_probe s /\ t_publish s' = t_publish s /\
    (forall x, option_map nolink (hp s' x) = option_map (fun X => nolink (expired X)) (hp s x)).
Proof.
  intros s qs H Z1 Z2 Z3. unfold shutdown_recs. pose proof (rinv_drop_now s qs H) as H0.
  assert (Z : forall k, on Now [] qs k = []) by (intros k; destruct k; cbv [on queue_eqb]; first [reflexivity|assumption]).
  destruct (shutdown_all_ok (concat (pub s)) _ _ H0) as (s' & E' & H' & P1 & P2 & P3 & P4 & P5 & P6 & P7 & P8).
  - exact (pub_live s (ri_p _ _ H)).
  - apply (pk_nodup _ (ri_p _ _ H)).
  - intros k x _. rewrite Z. auto.
  - exists s'. split; [exact E'|]. split.
    { eapply rinv_ext; [exact H'|]. intros k. destruct (queue_dec k Now) as [->|D]; [rewrite !on_same; symmetry; apply app_nil_r|rewrite (on_other Now _ (fun _ => []) k D), (on_other Now _ (on Now [] qs) k D); symmetry; apply Z]. }
    repeat (split; [assumption|]). intros x. rewrite P8. change (hp (set_head s Now None)) with (hp s).
    destruct (in_dec Nat.eq_dec x (concat (pub s))) as [I|I]; [reflexivity|]. destruct (hp s x) eqn:E; [|reflexivity]. exfalso. apply I. apply (pk_live _ (ri_p _ _ H)). congruence.
Qed.

Lemma set_all_zero : forall l s qs t type i, rinv s qs -> all_live (hp s) l -> NoDup l -> (forall k x X, In x l -> hp s x = Some X -> a_type (rr X) = type -> ~ In x (qs k)) -> is_zero i = true ->
  exists s' qs', set_all s t l type i = Ok s' /\ rinv s' qs'.
Proof.
  induction l as [|r l IH]; intros s qs t type i H L N O Z; cbn [set_all]; [eauto|].
  apply all_live_cons in L as [(X & E) L]. apply NoDup_cons_iff in N as [Nr N]. rewrite (hget_some _ _ _ E). cbn [bind]. rewrite Z. destruct (Z.eqb_spec (a_type (rr X)) type) as [Ty|Ty]; cbn [bind].
  - set (Y := set_link (set_rr X (set_ttl (rr X) 0)) (a_now s)).
    eapply (IH _ (on Now (r :: qs Now) qs)); [|  |exact N| |exact Z].
    + eapply raw_push; [exact H|exact E|reflexivity|reflexivity|apply urec_expired; apply (ri_u _ _ H r X E)|]. intros k. exact (O k r X (or_introl eq_refl) E Ty).
    + intros x I. cbn [hp set_head set_hp]. destruct (Nat.eq_dec x r) as [->|D]; [contradiction|]. rewrite hset_other by exact D. apply L. exact I.
    + intros k x X' I EX' Ty' K. assert (Dx : x <> r) by (intros ->; contradiction). cbn [set_head set_hp hp] in EX'. rewrite hset_other in EX' by exact Dx. destruct (queue_dec k Now) as [->|D].
      * rewrite on_same in K. destruct K as [->|K]; [contradiction|]. exact (O Now x X' (or_intror I) EX' Ty' K).
      * rewrite on_other in K by exact D. exact (O k x X' (or_intror I) EX' Ty' K).
  - eapply IH; eauto. intros k x X' I. apply O. right. exact I.
Qed.
