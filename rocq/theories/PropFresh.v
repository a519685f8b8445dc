(* C95: asking again for what is cached. *)
From Verif Require Import Base Lemmas Hash Wire Rec Qry Out In Api SpecDaemon FactsCalls QryInv SpecCache SpecReent SpecFresh FactsFresh Scenario.

(* The question was asked last by ev1.  From three seconds later on the cache
   held, at every call, a live answer to it that expires no later than x.  Then,
   when nothing else is to be sent, one of the first two messages taken at or
   after second x - 7 asks it again.  Missing: see the two refuted claims. *)
Theorem C95_partial : forall t0 cls frm l1 ev1 l2 d n ty x e d2 m k e2 d3 m2 k2, 0 < fst t0 -> history (mdnsd_new t0 cls frm) (l1 ++ ev1 :: l2) d -> forward (l1 ++ ev1 :: l2) ->
  asks_for n ty ev1 = true -> (forall ev, In ev l2 -> asks_for n ty ev = false) ->
  (forall ev, In ev (ev1 :: l2) -> not_probing (ev_before ev) n) ->
  (forall ev, In ev l2 -> fst (e_now (ev_env ev1)) + 3 <= fst (e_now (ev_env ev)) -> exists c, answers_to (ev_before ev) n ty c /\ fst (e_now (ev_env ev)) < good_until c <= x) ->
  asked_now d n ty -> nothing_waits d -> fst (now d) <= fst (e_now e) -> fst (e_now (ev_env ev1)) + 3 <= fst (e_now e) -> x - 7 <= fst (e_now e) ->
  (exists c, answers_to d n ty c /\ fst (e_now e) < good_until c <= x) ->
  legal d e OOut -> step d e OOut = Ok (d2, RMsg m k) -> asked_now d2 n ty -> fst (e_now e) <= fst (e_now e2) ->
  legal d2 e2 OOut -> step d2 e2 OOut = Ok (d3, RMsg m2 k2) ->
  asks_for n ty (mkevent d e OOut (RMsg m k) d2) = true \/ asks_for n ty (mkevent d2 e2 OOut (RMsg m2 k2) d3) = true.
Proof. exact asked_again. Qed.
Print Assumptions C95_partial.

(* Asked at 2, 3 and 5, answered at 3 with TTL 100, so good until 61 *)
Definition diligent : list (tv * op) :=
  [((1, 0), OQuery (nm 97) QTYPE_A (Some 7%nat)); ((2, 0), OOut); ((3, 0), OOut); ((3, 0), OIn (telling [rr_a (nm 97) 1 100 [10; 0; 0; 5]]) peer); ((5, 0), OOut)].
Definition later : list (tv * op) := [((9, 0), OOut); ((30, 0), OOut); ((53, 0), OOut)].
Definition is_live (d : daemon) (t x : Z) : bool :=
  existsb (fun c => bytes_eqb (a_name (c_rr c)) (nm 97) && (a_type (c_rr c) =? QTYPE_A) && (t <? a_ttl (c_rr c)) && (a_ttl (c_rr c) <=? x)) (concat (cache (Q d))).
Lemma live_by : forall d t x, is_live d t x = true -> exists c, answers_to d (nm 97) QTYPE_A c /\ t < good_until c <= x.
Proof.
  intros d t x B. apply existsb_exists in B as (c & I & B). rewrite !andb_true_iff in B. destruct B as (((B1 & B2) & B3) & B4). exists c.
  split; [split; [exact I|split; [apply bytes_eqb_eq; exact B1|left; apply Z.eqb_eq; exact B2]]|unfold good_until; lia].
Qed.
Definition quiet_by (d : daemon) : bool := forallb (fun q => isnone (head (R d) q)) [Probing; Now; Pause; Publish].
Definition asked_at (l : list (tv * op)) : list Z := askings (nm 97) QTYPE_A (annals 1400 l).
Lemma cut_by : forall (P : event -> list event -> bool) A i, match nth_error A i with Some ev => P ev (skipn (S i) A) | None => false end = true -> exists l1 ev l2, A = l1 ++ ev :: l2 /\ P ev l2 = true.
Proof.
  intros P A i B. destruct (nth_error A i) as [ev|] eqn:E; [|discriminate]. apply nth_error_split in E as (l1 & l2 & -> & <-). exists l1, ev, l2. split; [reflexivity|].
  replace (skipn (S (length l1)) (l1 ++ ev :: l2)) with l2 in B; [exact B|]. clear. induction l1 as [|y l1 IH]; [reflexivity|exact IH].
Qed.
Definition refreshed_by (x : Z) (ev1 : event) (l2 : list event) : bool :=
  asks_for (nm 97) QTYPE_A ev1 && (fst (e_now (ev_env ev1)) =? 5) && forallb (fun ev => negb (asks_for (nm 97) QTYPE_A ev) && is_live (ev_before ev) (fst (e_now (ev_env ev))) x) l2 &&
  forallb (fun ev => quiet_by (ev_before ev)) (ev1 :: l2).
Lemma forward_by : forall l, forallb (fun ev => fst (now (ev_before ev)) <=? fst (e_now (ev_env ev))) l = true -> forward l.
Proof. intros l B ev I. rewrite forallb_forall in B. apply Z.leb_le. exact (B ev I). Qed.
Definition query_by (d : daemon) : bool := existsb (fun q => match qh (Q d) q with Some y => bytes_eqb (q_nm y) (nm 97) && (q_ty y =? QTYPE_A) | None => false end) (qlist (Q d)).
Lemma asked_by : forall d, query_by d = true -> asked_now d (nm 97) QTYPE_A.
Proof.
  intros d B. apply existsb_exists in B as (q & I & B). destruct (qh (Q d) q) as [y|] eqn:E; [|discriminate]. apply andb_true_iff in B as [B1 B2]. exists y.
  split; [exists q; auto|]. split; [apply bytes_eqb_eq; exact B1|apply Z.eqb_eq; exact B2].
Qed.
Lemma nothing_by : forall d, quiet_by d && match uans (R d) with [] => true | _ => false end && negb (is_shutdown d) = true -> nothing_waits d.
Proof.
  intros d B. rewrite !andb_true_iff in B. destruct B as ((B1 & B2) & B3). split; [destruct (uans (R d)); [reflexivity|discriminate]|]. split; [intros q r; exact (idle_by _ B1 r q)|apply negb_true_iff; exact B3].
Qed.
(* With messages taken in between, the first one from second 54 on asks; without, the second *)
Definition message_by (x : res (daemon * out)) (P : daemon -> bool) : bool := match x with Ok (d, RMsg _ _) => P d | _ => false end.
Lemma message_is : forall x P, message_by x P = true -> exists d m k, x = Ok (d, RMsg m k) /\ P d = true.
Proof. intros [[d [| | m k| |]]| | |] P B; try discriminate. exists d, m, k. auto. Qed.
Definition well_by (A : list event) (d : daemon) : bool :=
  forallb (fun ev => fst (now (ev_before ev)) <=? fst (e_now (ev_env ev))) A &&
  match nth_error A 4 with Some ev => refreshed_by 61 ev (skipn 5 A) | None => false end &&
  (is_live d 55 61 && query_by d && (quiet_by d && match uans (R d) with [] => true | _ => false end && negb (is_shutdown d)) &&
  message_by (step d (at_ (55, 0)) OOut) (fun d2 => query_by d2 && message_by (step d2 (at_ (56, 0)) OOut) (fun _ => true))).
Definition well (A : list event) (d : daemon) : Prop :=
  exists l1 ev1 l2 d2 m k d3 m2 k2, A = l1 ++ ev1 :: l2 /\ forward (l1 ++ ev1 :: l2) /\ asks_for (nm 97) QTYPE_A ev1 = true /\ fst (e_now (ev_env ev1)) = 5 /\
    (forall ev, In ev l2 -> asks_for (nm 97) QTYPE_A ev = false) /\ (forall ev, In ev (ev1 :: l2) -> not_probing (ev_before ev) (nm 97)) /\
    (forall ev, In ev l2 -> exists c, answers_to (ev_before ev) (nm 97) QTYPE_A c /\ fst (e_now (ev_env ev)) < good_until c <= 61) /\
    asked_now d (nm 97) QTYPE_A /\ nothing_waits d /\ (exists c, answers_to d (nm 97) QTYPE_A c /\ 55 < good_until c <= 61) /\
    step d (at_ (55, 0)) OOut = Ok (d2, RMsg m k) /\ asked_now d2 (nm 97) QTYPE_A /\ step d2 (at_ (56, 0)) OOut = Ok (d3, RMsg m2 k2).
Lemma well_is : forall A d, well_by A d = true -> well A d.
Proof.
  intros A d B. unfold well_by in B. apply andb_prop in B as [B B5]. apply andb_prop in B as [B1 B2]. apply andb_prop in B5 as [B5 B6]. apply andb_prop in B5 as [B5 B4].
  apply andb_prop in B5 as [B5 B3]. apply message_is in B6 as (d2 & m & k & E2 & B6). apply andb_prop in B6 as [B6 B7]. apply message_is in B7 as (d3 & m2 & k2 & E3 & _).
  apply cut_by in B2 as (l1 & ev1 & l2 & El & B2). exists l1, ev1, l2, d2, m, k, d3, m2, k2.
  unfold refreshed_by in B2. rewrite !andb_true_iff in B2. destruct B2 as (((G1 & G2) & G3) & G4). rewrite forallb_forall in G3, G4.
  split; [exact El|]. split; [rewrite <- El; apply forward_by; exact B1|]. split; [exact G1|]. split; [apply Z.eqb_eq; exact G2|].
  split; [intros ev I; specialize (G3 ev I); apply andb_true_iff in G3 as [G3 _]; apply negb_true_iff; exact G3|].
  split; [intros ev I r X _ _; exact (idle_by _ (G4 ev I) r Probing)|].
  split; [intros ev I; specialize (G3 ev I); apply andb_true_iff in G3 as [_ G3]; apply live_by; exact G3|].
  split; [apply asked_by; exact B3|]. split; [apply nothing_by; exact B4|]. split; [apply live_by; exact B5|]. split; [exact E2|]. split; [apply asked_by; exact B6|exact E3].
Qed.
Example C95_case : well (annals 1400 (diligent ++ later)) (story 1400 (diligent ++ later)) /\ well (annals 1400 diligent) (story 1400 diligent).
Proof. split; apply well_is; vm_compute; reflexivity. Qed.
Example C95_case_asked : map (fun more => asked_at (diligent ++ more ++ [((55, 0), OOut); ((56, 0), OOut)])) [later; []] = [[2; 3; 5; 55; 56]; [2; 3; 5; 56]].
Proof. vm_compute. reflexivity. Qed.

(* An answer that comes after the round of three questions is over is not asked
   for again, whatever is called afterwards, unless the query is made anew. *)
Theorem C95_refuted_late : exists d c, reach d /\ asked_now d (nm 97) QTYPE_A /\ answers_to d (nm 97) QTYPE_A c /\ fst (now d) < good_until c /\
  forall l d', history d l d' -> (forall ev, In ev l -> (forall cb, ev_call ev <> OQuery (nm 97) QTYPE_A (Some cb)) /\ not_probing (ev_before ev) (nm 97)) -> askings (nm 97) QTYPE_A l = [].
Proof.
  set (l0 := [((1, 0), OQuery (nm 97) QTYPE_A (Some 7%nat)); ((2, 0), OOut); ((3, 0), OOut); ((5, 0), OOut); ((8, 0), OOut); ((10, 0), OIn (telling [rr_a (nm 97) 1 100 [10; 0; 0; 5]]) peer)]).
  exists (story 1400 l0). eexists. split; [apply story_reach|]. split; [eexists; split; [exists 0%nat; split; [vm_compute; auto|vm_compute; reflexivity]|split; reflexivity]|].
  split; [split; [vm_compute; left; reflexivity|split; [reflexivity|left; reflexivity]]|]. split; [vm_compute; reflexivity|].
  intros l d' Hh A. apply (rests_on (story 1400 l0) l d' (nm 97) QTYPE_A (story_reach 1400 l0)); [|exact Hh|exact A].
  intros q y Eq _. assert (F : qfresh (Q (story 1400 l0)) = 1%nat) by (vm_compute; reflexivity). destruct (reach_dinv _ (story_reach 1400 l0)) as (qs & _ & (C1 & _)).
  pose proof (qi_fresh _ C1 q ltac:(congruence)) as Lq. rewrite F in Lq. assert (q = 0%nat) by lia. subst q. vm_compute in Eq. injection Eq as <-. reflexivity.
Qed.
Print Assumptions C95_refuted_late.

(* An answer with a shorter life than the one the query was set by expires
   without a question, though a message is taken every second. *)
Definition seconds (a : Z) (n : nat) : list (tv * op) := map (fun i => ((a + Z.of_nat i, 0), OOut)) (seq 0 n).
Definition each_second (l : list event) (a : Z) (n : nat) : bool :=
  forallb (fun i => existsb (fun ev => match ev_call ev with OOut => fst (e_now (ev_env ev)) =? a + Z.of_nat i | _ => false end) l) (seq 0 n).
Lemma each_by : forall l a n, each_second l a n = true -> forall s, a <= s < a + Z.of_nat n -> exists ev, In ev l /\ ev_call ev = OOut /\ fst (e_now (ev_env ev)) = s.
Proof.
  intros l a n B s Is. unfold each_second in B. rewrite forallb_forall in B. specialize (B (Z.to_nat (s - a)) ltac:(apply in_seq; lia)).
  apply existsb_exists in B as (ev & I & B). exists ev. split; [exact I|]. destruct (ev_call ev); try discriminate. split; [reflexivity|]. lia.
Qed.
Definition brief : list (tv * op) :=
  diligent ++ [((8, 0), OIn (telling [rr_a (nm 97) 1 1000 [10; 0; 0; 5]]) peer); ((9, 0), OOut); ((10, 0), OIn (telling [rr_a (nm 97) 1 100 [10; 0; 0; 6]]) peer)].
Theorem C95_refuted_short : exists d c l d', reach d /\ asked_now d (nm 97) QTYPE_A /\ answers_to d (nm 97) QTYPE_A c /\ nothing_waits d /\
  history d l d' /\ asked_now d' (nm 97) QTYPE_A /\ (forall s, fst (now d) <= s <= good_until c -> exists ev, In ev l /\ ev_call ev = OOut /\ fst (e_now (ev_env ev)) = s) /\
  askings (nm 97) QTYPE_A l = [].
Proof.
  destruct (live_by (story 1400 brief) 10 68) as (c & A & G1 & G2); [vm_compute; reflexivity|].
  exists (story 1400 brief), c, (recorded (story 1400 brief) (seconds 10 70)), (fst (played (story 1400 brief) (seconds 10 70))). split; [apply story_reach|].
  split; [apply asked_by; vm_compute; reflexivity|]. split; [exact A|]. split; [apply nothing_by; vm_compute; reflexivity|]. split; [apply recorded_history|].
  split; [apply asked_by; vm_compute; reflexivity|]. split; [|vm_compute; reflexivity].
  assert (B : each_second (recorded (story 1400 brief) (seconds 10 70)) 10 70 = true) by (vm_compute; reflexivity). assert (N : fst (now (story 1400 brief)) = 10) by (vm_compute; reflexivity).
  intros s Is. rewrite N in Is. apply (each_by _ _ _ B). change (Z.of_nat 70) with 70. clear B N A. lia.
Qed.
Print Assumptions C95_refuted_short.
