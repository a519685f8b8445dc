(* Supporting proofs for PropSafe.v. *)
From Verif Require Import Base SpecDns Lemmas Hash HashProofs Wire Rec Qry Out In Api WireSafe RecInv RecSafe RecOps RecAddr OutSafe QryInv QryOps CacheOps QryReg QryLoop InSafe InLoop InResp OutPub OutProbe OutExtra OutAll OutSpec Shut DaemonInv ParseWf SpecDaemon.
From Verif Require Export FactsCalls.

Lemma calls_safe : forall d e o, reach d -> legal d e o -> exists d' x, step d e o = Ok (d', x) /\ reach d'.
Proof. intros d e o K L. destruct (reach_ok d e o K L) as (d' & x & E). exists d', x. split; [exact E|]. eapply reach_step; eauto. Qed.

Lemma packets_safe : forall d e b psz m s p from, reach d -> 0 <= fst (e_now e) -> bytebuf b -> message_parse b psz = Ok (m, s, p) ->
  exists d' n, step d e (OIn m from) = Ok (d', RInt n) /\ reach d'.
Proof.
  intros d e b psz m s p from K N B E. assert (L : legal d e (OIn m from)) by (split; [exact N|exact (message_parse_wf _ _ _ _ _ B E)]).
  destruct (reach_ok d e _ K L) as (d' & x & E'). pose proof E' as E2. cbn [step] in E2. apply bind_ok in E2 as ([d2 n] & E2 & E3). injection E3 as <- <-.
  exists d2, n. split; [exact E'|]. eapply reach_step; eauto.
Qed.

Lemma none_waits : forall d qs k, rinv (R d) qs -> (forall r, ~ waits d k r) -> head (R d) k = None.
Proof.
  intros d qs k H W. rewrite (head_nil _ _ _ (ri_q _ _ H)). destruct (qs k) as [|r l] eqn:E; [reflexivity|]. exfalso. apply (W r). apply (waits_iff d qs k r H). rewrite E. left. reflexivity.
Qed.

Lemma shutdown_safe : forall d e, reach d -> 0 <= fst (e_now e) ->
  (forall r, ~ waits d Probing r) -> (forall r, ~ waits d Publish r) -> (forall r, ~ waits d Pause r) ->
  exists d', step d e OShutdown = Ok (d', RUnit) /\ reach d'.
Proof.
  intros d e K N W1 W2 W3. destruct (reach_dinv d K) as (qs & H & _).
  assert (L : legal d e OShutdown).
  { split; [exact N|]. split; [exact (none_waits d qs Probing H W1)|]. split; [exact (none_waits d qs Publish H W2)|exact (none_waits d qs Pause H W3)]. }
  destruct (reach_ok d e _ K L) as (d' & x & E). exists d'. assert (x = RUnit) as ->.
  { cbn [step] in E. apply bind_ok in E as (s & _ & E). injection E as _ <-. reflexivity. }
  split; [exact E|]. eapply reach_step; eauto.
Qed.

Lemma address_safe : forall d e a, reach d -> 0 <= fst (e_now e) ->
  ((forall r X, record d r X -> a_type (rr X) = QTYPE_A -> idle d r) -> exists d', step d e (OSetAddress a) = Ok (d', RUnit) /\ reach d') /\
  ((forall r X, record d r X -> a_type (rr X) = QTYPE_AAAA -> idle d r) -> exists d', step d e (OSetAddress6 a) = Ok (d', RUnit) /\ reach d').
Proof.
  intros d e a K N. destruct (reach_dinv d K) as (qs & H & _).
  assert (Z : forall ty, (forall r X, record d r X -> a_type (rr X) = ty -> idle d r) -> is_zero a = false \/ forall r X, hp (R d) r = Some X -> a_type (rr X) = ty -> unlinked (R d) r).
  { intros ty I. right. intros r X EX Ty. apply (off_unlinked (R d) qs r H). intros k J. apply (I r X EX Ty k). apply (waits_iff d qs k r H). exact J. }
  split; intros I; apply Z in I.
  - destruct (reach_ok d e (OSetAddress a) K (conj N I)) as (d' & x & E). exists d'. assert (x = RUnit) as ->.
    { cbn [step] in E. destruct (bytes_eqb _ _); [injection E as _ <-; reflexivity|]. apply bind_ok in E as (s & _ & E). injection E as _ <-. reflexivity. }
    split; [exact E|]. eapply reach_step; [exact K| |exact E]. exact (conj N I).
  - destruct (reach_ok d e (OSetAddress6 a) K (conj N I)) as (d' & x & E). exists d'. assert (x = RUnit) as ->.
    { cbn [step] in E. destruct (bytes_eqb _ _); [injection E as _ <-; reflexivity|]. apply bind_ok in E as (s & _ & E). injection E as _ <-. reflexivity. }
    split; [exact E|]. eapply reach_step; [exact K| |exact E]. exact (conj N I).
Qed.

Lemma clear_all_gone : forall d e, reach d -> exists d', step d e OClear = Ok (d', RUnit) /\
  (forall r, ~ published d' r) /\ (forall k r, ~ waits d' k r) /\ uans (R d') = [] /\ (forall r X, ~ record d' r X).
Proof.
  intros d e K. destruct (reach_dinv d K) as (qs & H & _). destruct (records_clear_ok (R d) qs H) as (s' & E & H' & D & U & Hd & P).
  exists (with_R d s'). cbn [step]. unfold on_recs. rewrite E. cbn [bind]. split; [reflexivity|]. split; [|split; [|split; [exact U|]]].
  - intros r I. unfold published in I. cbn [with_R R] in I. rewrite P in I. destruct I.
  - intros k r W. apply (waits_iff (with_R d s') (fun _ => []) k r H') in W. destruct W.
  - intros r X F. unfold record in F. cbn [with_R R] in F. rewrite D in F. discriminate.
Qed.
