(* Proofs about clearing the records and loading the .service files anew. *)
From Verif Require Import Base Lemmas SpecDns SpecMap SpecTxt Hash Wire Rec Qry Out In Api RecInv RecSafe OutSafe DaemonInv SpecDaemon SpecAddr SpecData FactsCalls FactsItems FactsEvolve FactsOut FactsSize FactsSized FactsData FactsSafe Lib Conf Load SpecConf SpecLoad FactsLoad FactsLoad2 FactsLoad3 FactsHear FactsKnow FactsUni SpecSound FactsSound SpecReload FactsReload.

(* Records of which a property holds that does not depend on withdrawal *)
Section Kept.
Variable P : answer -> Prop.
Hypothesis Pw : forall a b, same_or_withdrawn a b -> P b -> P a.
Definition every (d : daemon) : Prop := forall r X, record d r X -> P (rr X).
Lemma step_every : forall d e o d' x, reach d -> legal d e o -> step d e o = Ok (d', x) -> leaves_data o -> every d -> every d'.
Proof.
  intros d e o d' x K L E Ld As r Y EY. destruct (step_no_new d e o d' x r Y K L E) as (X & EX); [destruct o; cbn [leaves_data maker] in *; tauto|exact EY|].
  pose proof (step_given d e o d' x r X Y K L E EX EY) as G. apply (Pw _ _ G). replace (given r (rr X) _) with (rr X); [exact (As r X EX)|]. unfold given. cbn [ev_call]. destruct o; try reflexivity; destruct Ld.
Qed.
Lemma serving_every : forall h d d', reach d -> history d h d' -> serving h -> every d -> every d'.
Proof.
  intros h d d' K Hh. induction Hh as [|h d1 e o x d2 Hh IH L E]; intros Sv As; [exact As|]. apply Forall_app in Sv as [Sv Sl]. inversion Sl; subst. eapply step_every; [exact (history_reach _ _ _ K Hh)|exact L|exact E|assumption|exact (IH Sv As)].
Qed.
Lemma messages_every : forall d e d' m n, reach d -> legal d e OOut -> step d e OOut = Ok (d', RMsg m n) -> o_qr m = true -> every d ->
  forall sec nm ty cl ttl dt, says m (IRecord sec nm ty cl ttl dt) -> exists a, P a /\ a_name a = nm /\ a_type a = ty /\ a_ttl a = ttl /\ a_copy a = dt.
Proof.
  intros d e d' m n K L E Qr As sec nm ty cl ttl dt Si. unfold says in Si.
  destruct (uans (R d)) as [|u us] eqn:U.
  - destruct (response_lists d e d' m n K L U E Qr) as (L0 & E0 & Ei & _ & _ & HL & HE & _). rewrite Ei in Si. apply in_app_iff in Si as [I|I]; apply in_map_iff in I as ([r X] & EI & I).
    + destruct (HL r X I) as (EX & _). unfold shown in EI. injection EI as _ <- <- _ <- <-. exists (rr X). split; [exact (As r X EX)|auto].
    + destruct (HE r X I) as (_ & (X0 & EX0 & Er & _) & _). unfold shown in EI. injection EI as _ <- <- _ <- <-. exists (rr X). split; [rewrite <- Er; exact (As r X0 EX0)|auto].
  - destruct (unicast_lists d e d' m n u us K L U E) as (X & E0 & EX & _ & Ei & HE & _). rewrite Ei in Si. destruct Si as [Q1|[EI|I]]; [discriminate Q1| |].
    + unfold shown in EI. injection EI as _ <- <- _ <- <-. exists (rr X). split; [exact (As _ X EX)|auto].
    + apply in_map_iff in I as ([r Y] & EI & I). destruct (HE r Y I) as (EY & _). unfold shown in EI. injection EI as _ <- <- _ <- <-. exists (rr Y). split; [exact (As r Y EY)|auto].
Qed.
End Kept.

(* The files after a full reload *)
Lemma hup_served : forall d e ifs ifname hostname l, reach d -> 0 <= fst (e_now e) -> e_ifs e = Some ifs -> well_named hostname l -> apart hostname l ->
  exists d1 d2, step d e OClear = Ok (d1, RUnit) /\ load_files d1 e ifname hostname l = Ok d2 /\ reach d2 /\ served d2 ifs ifname hostname l /\
    forall r X, record d2 r X -> exists s, In s l /\ part_of ifs ifname hostname s (rr X).
Proof.
  intros d e ifs ifname hostname l K T Ei W Ap. destruct (clear_all_gone d e K) as (d1 & E1 & _ & _ & _ & N). assert (K1 : reach d1) by (apply (reach_step d e OClear d1 RUnit K); [split; [exact T|exact I]|exact E1]).
  destruct (services d1 e ifs ifname hostname l K1 N T Ei W Ap) as (d2 & E2 & K2 & A & B & C). exists d1, d2. split; [exact E1|]. split; [exact E2|]. split; [exact K2|]. split; [split; [exact A| |exact C]|exact B].
  intros r X EX. destruct (B r X EX) as (s & Is & P). exists s. auto.
Qed.
Lemma hup_only : forall d e ifs ifname hostname l, reach d -> 0 <= fst (e_now e) -> e_ifs e = Some ifs -> well_named hostname l -> apart hostname l ->
  exists d1 d2, step d e OClear = Ok (d1, RUnit) /\ load_files d1 e ifname hostname l = Ok d2 /\ reach d2 /\ served d2 ifs ifname hostname l /\
  forall h d3, history d2 h d3 -> serving h -> forall e3 d4 m n, legal d3 e3 OOut -> step d3 e3 OOut = Ok (d4, RMsg m n) -> o_qr m = true ->
  forall sec nm ty cl ttl dt, says m (IRecord sec nm ty cl ttl dt) ->
  exists s a, In s l /\ part_of ifs ifname hostname s a /\ a_name a = nm /\ a_type a = ty /\ a_copy a = dt /\ (ttl = a_ttl a \/ ttl = 0).
Proof.
  intros d e ifs ifname hostname l K T Ei W Ap. destruct (hup_served d e ifs ifname hostname l K T Ei W Ap) as (d1 & d2 & E1 & E2 & K2 & S2 & B). exists d1, d2. split; [exact E1|]. split; [exact E2|]. split; [exact K2|]. split; [exact S2|].
  intros h d3 Hh Sv e3 d4 m n L E Qr sec nm ty cl ttl dt Sy.
  set (P := fun a => exists s b, In s l /\ part_of ifs ifname hostname s b /\ same_or_withdrawn a b).
  assert (Pw : forall a b, same_or_withdrawn a b -> P b -> P a) by (intros a b Sw (s & c & Is & Pc & Sw'); exists s, c; split; [exact Is|]; split; [exact Pc|exact (withdrawn_trans _ _ _ Sw Sw')]).
  assert (A2 : every P d2) by (intros r X EX; destruct (B r X EX) as (s & Is & Ps); exists s, (rr X); split; [exact Is|]; split; [exact Ps|apply withdrawn_refl]).
  destruct (messages_every P d3 e3 d4 m n (history_reach _ _ _ K2 Hh) L E Qr (serving_every P Pw h d2 d3 K2 Hh Sv A2) sec nm ty cl ttl dt Sy) as (a & (s & b & Is & Pb & Sw) & A3 & A4 & A5 & A6).
  exists s, b. split; [exact Is|]. split; [exact Pb|]. rewrite <- (copy_withdrawn a b Sw). destruct Sw as (Q1 & Q2 & _ & _ & _ & _ & _ & _ & _ & Q3). rewrite <- Q1, <- Q2. split; [exact A3|]. split; [exact A4|]. split; [exact A6|]. rewrite <- A5. exact Q3.
Qed.
