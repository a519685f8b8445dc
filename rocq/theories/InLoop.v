(* What a received query or response does to the daemon. *)
From Verif Require Import Base Lemmas Hash HashProofs Wire Rec Qry Out In Api RecInv RecSafe RecOps RecAddr OutSafe QryInv QryOps CacheOps QryReg QryLoop InSafe.

(* ------------------------------------------------------------------ *)
(* Service enumeration *)

Definition qsent (h : heap) (qs : queue -> list nat) (c : nat) : queue -> list nat :=
  match h c with Some X => sent_queues X c qs | None => qs end.

Lemma qsent_ext : forall h h' l qs, (forall x, In x l -> option_map nolink (h' x) = option_map nolink (h x)) -> fold_left (qsent h') l qs = fold_left (qsent h) l qs.
Proof.
  intros h h' l. induction l as [|c l IH]; intros qs E; [reflexivity|]. cbn [fold_left]. rewrite IH by (intros x I; apply E; right; exact I). f_equal.
  specialize (E c (or_introl eq_refl)). unfold qsent. destruct (h' c) as [X|], (h c) as [Y|]; try discriminate; [|reflexivity].
  pose proof (onolink_some _ _ _ E eq_refl) as K. apply sent_queues_nolink. exact K.
Qed.

Lemma r_send_plain : forall s qs t r X, rinv s qs -> hp s r = Some X ->
  exists s', r_send s t r = Ok s' /\ rinv s' (sent_queues X r qs) /\ hframe (hp s) (hp s') /\ fresh s' = fresh s /\ pub s' = pub s /\ uans s' = uans s /\ conflicts s' = conflicts s.
Proof.
  intros s qs t r X H E. destruct (r_send_full s qs t r X H E) as (s1 & E1 & H1 & F1). exists s1.
  pose proof (send_time_fields s t X) as T. cbv zeta in T. destruct T as (T1 & T2 & T3 & T4 & T5 & T6).
  destruct F1 as [(G1 & G2 & G3 & G4 & G5 & G6 & G7) KF]. rewrite T1 in KF. split; [exact E1|]. split; [exact H1|]. split; [exact KF|]. split; [congruence|]. split; [congruence|]. split; congruence.
Qed.

Lemma disco_loop_spec : forall cs fuel s qs t type pre suf, rinv s qs -> chain_of s DISCO_NAME = pre ++ suf -> cands (hp s) DISCO_NAME type suf = cs -> (length cs < fuel)%nat ->
  exists s', disco_loop fuel s t (hd_error cs) DISCO_NAME type = Ok s' /\ rinv s' (fold_left (qsent (hp s)) cs qs) /\
    hframe (hp s) (hp s') /\ fresh s' = fresh s /\ pub s' = pub s /\ uans s' = uans s /\ conflicts s' = conflicts s.
Proof.
  induction cs as [|c cs IH]; intros fuel s qs t type pre suf H Ec Ecs Lf; destruct fuel as [|fuel]; try (cbn [length] in Lf; lia); cbn [hd_error disco_loop].
  - exists s. cbn [fold_left]. split; [reflexivity|]. split; [exact H|]. split; [apply hframe_refl|]. auto.
  - destruct (r_next_then s DISCO_NAME type pre suf c cs (ri_p _ _ H) Ec Ecs) as (a & b & X & -> & Eb & En & EX & MX).
    rewrite (hget_some _ _ _ EX). cbn [bind]. apply match_rec_iff in MX as [Mn _]. rewrite Mn, bytes_eqb_refl.
    destruct (r_send_plain s qs t c X H EX) as (s1 & E1 & H1 & F1 & G1 & G2 & G3 & G4). rewrite E1. cbn [bind].
    assert (Ec1 : chain_of s1 DISCO_NAME = pre ++ a ++ c :: b) by (unfold chain_of; rewrite G2; exact Ec).
    assert (Ecs1 : cands (hp s1) DISCO_NAME type (a ++ c :: b) = c :: cs) by (rewrite (cands_ext (hp s)); [exact Ecs|]; intros x _; symmetry; apply F1).
    destruct (r_next_then s1 DISCO_NAME type pre (a ++ c :: b) c cs (ri_p _ _ H1) Ec1 Ecs1) as (a1 & b1 & X1 & _ & _ & En1 & _ & _). rewrite En1. cbn [bind].
    destruct (IH fuel s1 (sent_queues X c qs) t type (pre ++ a ++ [c]) b H1) as (s' & E' & H' & F' & G1' & G2' & G3' & G4').
    { rewrite Ec1, <- !app_assoc. reflexivity. } { rewrite (cands_ext (hp s)); [exact Eb|]. intros x _; symmetry; apply F1. } { cbn [length] in Lf. lia. }
    exists s'. split; [exact E'|]. split.
    { cbn [fold_left]. unfold qsent at 2. rewrite EX. rewrite (qsent_ext (hp s)) in H'; [exact H'|]. intros x _; symmetry; apply F1. }
    split; [eapply hframe_trans; eassumption|]. repeat split; congruence.
Qed.

(* ------------------------------------------------------------------ *)
(* One question *)

Definition answered (d : daemon) (s : recs) (i : option (list ifaddr)) (tm : Z) (rc : list resource) (b : bool) : daemon :=
  mkdaemon s (Q d) (now d) (expireall d) (class d) (frame d) (is_shutdown d) b (d_family d) (d_addr d) (d_addr6 d) i tm (has_recv d) rc.

Definition is_disco (q : question) : bool := bytes_eqb (q_name q) DISCO_NAME.
Definition asked (d : daemon) (q : question) : list nat :=
  if q_class q =? class d then cands (hp (R d)) (q_name q) (q_type q) (chain_of (R d) (q_name q)) else [].
Definition loses (me : bool) (q : question) (an : list resource) (h : heap) (l : list nat) : list nat := if is_disco q then [] else yielding me q an h l.
Definition qmove (me : bool) (q : question) (an : list resource) (h : heap) : (queue -> list nat) -> nat -> queue -> list nat :=
  if is_disco q then qsent h else qstep me q an h.
Definition unicasts (from : addr) (id : Z) (q : question) (l dead : list nat) : list unicast :=
  match l, dead with
  | r :: _, [] => if is_disco q || (port from =? 5353) then [] else [mkuni id from r]
  | _, _ => []
  end.

Lemma asked_in : forall d q x, pok (R d) -> (In x (asked d q) <-> q_class q = class d /\ exists X, hp (R d) x = Some X /\ match_rec (q_name q) (q_type q) (rr X) = true).
Proof.
  intros d q x H. unfold asked. destruct (Z.eqb_spec (q_class q) (class d)) as [Ec|Ec].
  - rewrite cands_in. split.
    + intros [_ A]. auto.
    + intros [_ (X & E & M)]. split; [|eauto]. pose proof (pok_in _ _ _ H E) as I. apply match_rec_iff in M as [M _]. rewrite M in I. exact I.
  - split; [intros []|]. intros [A _]. contradiction.
Qed.

Lemma rinv_chain_fuel : forall s qs n, rinv s qs -> (length (chain_of s n) < qfuel s)%nat.
Proof.
  intros s qs n H. unfold qfuel. apply Nat.lt_succ_r. apply nodup_bound; [apply pok_chain_nodup; apply H|]. intros x I.
  apply (qk_fresh _ _ (ri_q _ _ H)). apply (chain_of_live s n (ri_p _ _ H)). exact I.
Qed.
Lemma filter_len : forall (A : Type) (p : A -> bool) l, (length (filter p l) <= length l)%nat.
Proof. intros A p l. induction l as [|x l IH]; [cbn; lia|]. cbn [filter]. destruct (p x); cbn [length]; lia. Qed.

Lemma after_hframe : forall h h', hframe h h' -> after (vanish []) h h'.
Proof. intros h h' F x. unfold vanish, upon. cbn [mem existsb]. specialize (F x). destruct (h x); symmetry; exact F. Qed.

Lemma rinv_uans : forall s qs u, rinv s qs -> hp s (u_r u) <> None -> rinv (set_uans s (u :: uans s)) qs.
Proof.
  intros s qs u H L. split.
  - eapply (qok_head s); [apply H|reflexivity..|intros []; reflexivity].
  - eapply pok_frame; [apply H|reflexivity|apply hframe_refl].
  - intros x X E. apply (ri_u _ _ H x X E).
  - intros v [<-|I]; [exact L|apply (ri_ua _ _ H); exact I].
Qed.

Lemma filter_all : forall (A : Type) (p : A -> bool) l, (forall x, p x = true) -> filter p l = l.
Proof. intros A p l K. induction l as [|x l IH]; [reflexivity|]. cbn [filter]. rewrite K, IH. reflexivity. Qed.

Lemma question_spec : forall d e from did id q qd an qs, rinv (R d) qs -> (did = true -> ifs d = view d e) ->
  let me := is_me d e from in
  let l := asked d q in
  let dead := loses me q an (hp (R d)) l in
  exists s' i tm L did',
    questions d e from did id (q :: qd) an = questions (answered d s' i tm (received d ++ L) (disco d || is_disco q && negb (match l with [] => true | _ => false end))) e from did' id qd an /\
    (i = ifs d \/ i = view d e) /\ (did' = true -> i = view d e) /\
    rinv s' (fold_left (qmove me q an (hp (R d))) l qs) /\ after (vanish dead) (hp (R d)) (hp s') /\ fresh s' = fresh (R d) /\
    uans s' = unicasts from id q l dead ++ filter (fun u => negb (mem (u_r u) dead)) (uans (R d)) /\
    conflicts s' = conflicts (R d) ++ flat_map (at_rec (hp (R d)) report) dead /\
    incl L an /\ (has_recv d = false -> L = []) /\ (dead = [] -> pub s' = pub (R d)).
Proof.
  intros d e from did id q qd an qs H D me l dead. cbn [questions].
  assert (Same : forall (A : Type) (p : list A), filter (fun _ : A => true) p = p) by (intros A p; apply filter_all; reflexivity).
  assert (Nop : l = [] -> exists s' i tm L did',
    questions d e from did id qd an = questions (answered d s' i tm (received d ++ L) (disco d || is_disco q && negb (match l with [] => true | _ => false end))) e from did' id qd an /\
    (i = ifs d \/ i = view d e) /\ (did' = true -> i = view d e) /\
    rinv s' (fold_left (qmove me q an (hp (R d))) l qs) /\ after (vanish dead) (hp (R d)) (hp s') /\ fresh s' = fresh (R d) /\
    uans s' = unicasts from id q l dead ++ filter (fun u => negb (mem (u_r u) dead)) (uans (R d)) /\
    conflicts s' = conflicts (R d) ++ flat_map (at_rec (hp (R d)) report) dead /\
    incl L an /\ (has_recv d = false -> L = []) /\ (dead = [] -> pub s' = pub (R d))).
  { intros El. unfold dead, loses, yielding. rewrite El. cbn [filter fold_left negb]. exists (R d), (ifs d), (ifs_time d), [], did.
    replace (if is_disco q then [] else []) with (@nil nat) by (destruct (is_disco q); reflexivity). cbn [unicasts flat_map mem existsb negb app].
    rewrite andb_false_r, orb_false_r, !app_nil_r, Same. split; [destruct d; reflexivity|]. split; [auto|]. split; [exact D|]. split; [exact H|].
    split; [apply after_hframe; apply hframe_refl|]. repeat split; auto. intros x []. }
  destruct (q_class q =? class d) eqn:Ec; cbn [negb]; [|apply Nop; unfold l, asked; rewrite Ec; reflexivity].
  rewrite (r_next_first _ _ _ (ri_p _ _ H)). cbn [bind].
  assert (El : l = cands (hp (R d)) (q_name q) (q_type q) (chain_of (R d) (q_name q))) by (unfold l, asked; rewrite Ec; reflexivity).
  rewrite <- El. destruct (hd_error l) as [r0|] eqn:Hl; [|apply Nop; destruct l; [reflexivity|discriminate]]. clear Nop.
  assert (Lf : (length l < qfuel (R d))%nat).
  { rewrite El. eapply Nat.le_lt_trans; [apply filter_len|]. eapply rinv_chain_fuel. exact H. }
  fold (is_disco q). destruct (is_disco q) eqn:Dq.
  - assert (Dn : q_name q = DISCO_NAME) by (apply bytes_eqb_eq; exact Dq). rewrite Dn. cbn [with_disco R now]. rewrite <- Hl. rewrite Dn in El.
    destruct (disco_loop_spec l (qfuel (R d)) (R d) qs (now d) (q_type q) [] (chain_of (R d) DISCO_NAME) H eq_refl (eq_sym El) Lf) as (s' & E' & H' & F' & G1 & G2 & G3 & G4).
    rewrite E'. cbn [bind]. exists s', (ifs d), (ifs_time d), [], did. assert (Dd : dead = []) by (unfold dead, loses; rewrite Dq; reflexivity). rewrite Dd.
    destruct l as [|r l']; [discriminate|]. cbn [unicasts mem existsb negb flat_map app]. rewrite Dq. cbn [orb app]. rewrite !app_nil_r, Same.
    split; [cbn [negb andb]; rewrite orb_true_r; reflexivity|]. split; [auto|]. split; [exact D|].
    split; [unfold qmove; rewrite Dq; exact H'|]. split; [apply after_hframe; exact F'|]. repeat split; auto. intros x [].
  - rewrite <- Hl. destruct (answer_loop_spec l (qfuel (R d)) d e from did q an false qs [] (chain_of (R d) (q_name q)) H eq_refl (eq_sym El) Lf D) as (s' & i & tm & L & did' & E' & Ii & Di & H' & A' & F' & U' & C' & L1 & L2 & P').
    rewrite E'. cbn [bind orb]. fold me in H', A', U', C'. cbn [orb]. rewrite andb_false_l, orb_false_r.
    assert (Dd : dead = yielding me q an (hp (R d)) l) by (unfold dead, loses; rewrite Dq; reflexivity). rewrite <- Dd in *. fold me. rewrite <- Dd.
    destruct l as [|r l']; [discriminate|]. cbn [hd_error] in Hl. injection Hl as ->.
    destruct dead as [|y dead'].
    + cbn [negb orb andb unicasts]. rewrite Dq. cbn [orb]. rewrite Same in U'. destruct (port from =? 5353); cbn [negb].
      * exists s', i, tm, L, did'. rewrite Same. cbn [app]. split; [f_equal; destruct d; reflexivity|]. split; [exact Ii|]. split; [exact Di|]. split; [unfold qmove; rewrite Dq; exact H'|].
        repeat split; auto.
      * exists (u_push s' r0 id from), i, tm, L, did'. rewrite Same. split; [f_equal; destruct d; reflexivity|]. split; [exact Ii|]. split; [exact Di|].
        split. { unfold u_push. apply rinv_uans; [unfold qmove; rewrite Dq; exact H'|]. cbn [u_r]. pose proof (A' r0) as Ar. unfold vanish, upon in Ar. cbn [mem existsb] in Ar.
          assert (I0 : In r0 (asked d q)) by (unfold asked; rewrite Ec, <- El; left; reflexivity). apply (asked_in _ _ _ (ri_p _ _ H)) in I0 as (_ & X & EX & _). rewrite EX in Ar. destruct (hp s' r0); [discriminate|discriminate Ar]. }
        split; [exact A'|]. split; [exact F'|]. split; [unfold u_push; cbn [uans set_uans app]; rewrite U'; reflexivity|]. repeat split; auto.
    + cbn [negb orb andb unicasts]. exists s', i, tm, L, did'. cbn [app]. split; [f_equal; destruct d; reflexivity|]. split; [exact Ii|]. split; [exact Di|]. split; [unfold qmove; rewrite Dq; exact H'|].
      repeat split; auto. discriminate.
Qed.

(* ------------------------------------------------------------------ *)
(* Where the records asked for end up *)

(* None: where it was; Some None: on no queue *)
Definition where_to (me : bool) (q : question) (an : list resource) (X : mrec) : option (option queue) :=
  if is_disco q then match send_queue X with Some k => Some (Some k) | None => None end
  else if yields me q an X then Some None
  else if replies q an X then match send_queue X with Some k => Some (Some k) | None => None end else None.
Definition lands (w : option (option queue)) (k : queue) (before : Prop) : Prop :=
  match w with None => before | Some None => before /\ k <> Probing | Some (Some k') => k = k' end.
Definition goes (me : bool) (q : question) (an : list resource) (h : heap) (l : list nat) (x : nat) : option (option queue) :=
  if mem x l then match h x with Some X => where_to me q an X | None => None end else None.

Lemma sent_queues_in : forall X c qs k x, (forall k, NoDup (qs k)) ->
  (In x (sent_queues X c qs k) <-> match send_queue X with Some k' => (x = c /\ k = k') \/ (x <> c /\ In x (qs k)) | None => In x (qs k) end).
Proof. intros X c qs k x ND. unfold sent_queues. destruct (send_queue X); [apply enq_in; exact ND|reflexivity]. Qed.

Lemma qmove_nodup : forall me q an h qs c, (forall k, NoDup (qs k)) -> forall k, NoDup (qmove me q an h qs c k).
Proof.
  intros me q an h qs c ND k. assert (SQ : forall X, NoDup (sent_queues X c qs k)).
  { intros X. unfold sent_queues. destruct (send_queue X) as [k'|]; [|apply ND]. unfold enq, on. destruct (queue_eqb k k').
    - destruct (in_dec Nat.eq_dec c (qs k')); [apply ND|]. constructor; [assumption|apply ND].
    - apply remove1_nodup. apply ND. }
  unfold qmove, qsent, qstep. destruct (is_disco q), (h c) as [X|]; auto. destruct (yields me q an X).
  - unfold on. destruct (queue_eqb k Probing); [apply remove1_nodup|]; apply ND.
  - destruct (replies q an X); auto.
Qed.

Lemma qmove_in : forall me q an h qs c k x, (forall k, NoDup (qs k)) ->
  (In x (qmove me q an h qs c k) <-> lands (goes me q an h [c] x) k (In x (qs k))).
Proof.
  intros me q an h qs c k x ND. unfold goes. cbn [mem existsb]. rewrite orb_false_r.
  assert (SQ : forall X, In x (sent_queues X c qs k) <-> lands (if Nat.eqb x c then match send_queue X with Some k => Some (Some k) | None => None end else None) k (In x (qs k))).
  { intros X. rewrite sent_queues_in by exact ND. destruct (Nat.eqb_spec x c), (send_queue X); cbn [lands]; tauto. }
  unfold qmove, qsent, qstep, where_to. destruct (is_disco q), (h c) as [X|] eqn:Ec.
  - rewrite SQ. destruct (Nat.eqb_spec x c) as [->|]; [rewrite Ec|]; reflexivity.
  - destruct (Nat.eqb_spec x c) as [->|]; [rewrite Ec|]; reflexivity.
  - destruct (yields me q an X) eqn:Y; [|destruct (replies q an X) eqn:Rp].
    + unfold on. destruct (Nat.eqb_spec x c) as [->|N]; [rewrite Ec, Y|]; cbn [lands]; (destruct (queue_eqb k Probing) eqn:K; [apply queue_eqb_eq in K; subst k; rewrite remove1_in_iff by apply ND|]).
      * intuition congruence.
      * assert (k <> Probing) by (intros ->; rewrite queue_eqb_refl in K; discriminate). tauto.
      * tauto.
      * tauto.
    + rewrite SQ. destruct (Nat.eqb_spec x c) as [->|]; [rewrite Ec, Y, Rp|]; reflexivity.
    + destruct (Nat.eqb_spec x c) as [->|]; [rewrite Ec, Y, Rp|]; reflexivity.
  - destruct (Nat.eqb_spec x c) as [->|]; [rewrite Ec|]; reflexivity.
Qed.

Lemma qmoves_in : forall me q an h l qs k x, NoDup l -> (forall k, NoDup (qs k)) ->
  (In x (fold_left (qmove me q an h) l qs k) <-> lands (goes me q an h l x) k (In x (qs k))).
Proof.
  intros me q an h l. induction l as [|c l IH]; intros qs k x Nl ND; [reflexivity|]. cbn [fold_left]. apply NoDup_cons_iff in Nl as [Nc Nl].
  rewrite IH by (auto; intros k'; apply qmove_nodup; exact ND). destruct (Nat.eq_dec x c) as [->|N].
  - unfold goes at 1. apply mem_false in Nc. rewrite Nc. cbn [lands]. rewrite qmove_in by exact ND. unfold goes. cbn [mem existsb]. rewrite Nat.eqb_refl. reflexivity.
  - assert (G : goes me q an h (c :: l) x = goes me q an h l x) by (unfold goes; cbn [mem existsb]; destruct (Nat.eqb_spec x c); [contradiction|reflexivity]).
    rewrite G. assert (In x (qmove me q an h qs c k) <-> In x (qs k)).
    { rewrite qmove_in by exact ND. unfold goes. cbn [mem existsb]. destruct (Nat.eqb_spec x c); [contradiction|reflexivity]. }
    destruct (goes me q an h l x) as [[k'|]|]; cbn [lands]; tauto.
Qed.

(* ------------------------------------------------------------------ *)
(* All questions *)

Definition targets (d : daemon) (q : question) (x : nat) (X : mrec) : Prop :=
  q_class q = class d /\ hp (R d) x = Some X /\ match_rec (q_name q) (q_type q) (rr X) = true.
(* Withdrawn by, queued by, owed a unicast answer by one of the questions *)
Definition lost (d : daemon) (me : bool) (qd : list question) (an : list resource) (x : nat) (X : mrec) : Prop :=
  exists q, In q qd /\ targets d q x X /\ is_disco q = false /\ yields me q an X = true.
Definition queued (d : daemon) (qd : list question) (an : list resource) (x : nat) (k : queue) : Prop :=
  exists q X, In q qd /\ targets d q x X /\ (is_disco q = true \/ replies q an X = true) /\ send_queue X = Some k.
Definition owed (d : daemon) (qd : list question) (id : Z) (from : addr) (u : unicast) : Prop :=
  exists q X, In q qd /\ targets d q (u_r u) X /\ is_disco q = false /\ port from <> 5353 /\ u_id u = id /\ u_to u = from.

Lemma asked_nodup : forall d q, pok (R d) -> NoDup (asked d q).
Proof. intros d q H. unfold asked. destruct (q_class q =? class d); [|constructor]. apply NoDup_filter. apply pok_chain_nodup. exact H. Qed.

Lemma targets_back : forall d s' i tm rc b dead q x X, after (vanish dead) (hp (R d)) (hp s') -> targets (answered d s' i tm rc b) q x X ->
  exists X', targets d q x X' /\ nolink X = nolink X'.
Proof.
  intros d s' i tm rc b dead q x X A (T1 & T2 & T3). cbn [answered R class] in T1, T2. specialize (A x). rewrite T2 in A. unfold vanish, upon in A.
  destruct (hp (R d) x) as [Y|] eqn:EY; [|discriminate A]. destruct (mem x dead); [discriminate A|]. cbn [option_map] in A.
  assert (K : nolink X = nolink Y) by exact (f_equal (fun o => match o with Some y => y | None => nolink X end) A). exists Y. split; [|exact K]. split; [exact T1|]. split; [exact EY|].
  apply nolink_fields in K as (K & _). rewrite <- K. exact T3.
Qed.

Lemma send_queue_nolink : forall X Y, nolink X = nolink Y -> send_queue X = send_queue Y.
Proof. intros X Y K. apply nolink_fields in K as (_ & K1 & _ & K2 & _). unfold send_queue. rewrite K1, K2. reflexivity. Qed.

Lemma loses_in : forall d me q an x, pok (R d) -> (In x (loses me q an (hp (R d)) (asked d q)) <-> exists X, targets d q x X /\ is_disco q = false /\ yields me q an X = true).
Proof.
  intros d me q an x H. unfold loses. destruct (is_disco q); [split; [intros []|intros (X & _ & K & _); discriminate]|]. unfold yielding. rewrite filter_In, asked_in by exact H. unfold targets, holds. split.
  - intros [(A & X & E & M) Y]. rewrite E in Y. eauto 10.
  - intros (X & (A & E & M) & _ & Y). rewrite E. split; [split; [exact A|eauto]|exact Y].
Qed.

Lemma questions_sound : forall qd d e from did id an qs, rinv (R d) qs -> (did = true -> ifs d = view d e) ->
  let me := is_me d e from in
  exists s' i tm L b qs' C,
    questions d e from did id qd an = Ok (answered d s' i tm (received d ++ L) b) /\ rinv s' qs' /\ (i = ifs d \/ i = view d e) /\ fresh s' = fresh (R d) /\
    (forall x, option_map nolink (hp s' x) = option_map nolink (hp (R d) x) \/ hp s' x = None /\ exists X, lost d me qd an x X) /\
    (forall x k, In x (qs' k) -> In x (qs k) \/ queued d qd an x k) /\
    (forall x k, In x (qs k) -> (exists k', In x (qs' k')) \/ hp s' x = None) /\
    (forall u, In u (uans s') -> In u (uans (R d)) \/ owed d qd id from u) /\
    (forall u, In u (uans (R d)) -> In u (uans s') \/ hp s' (u_r u) = None) /\
    conflicts s' = conflicts (R d) ++ C /\ (forall c, In c C -> exists x X, lost d me qd an x X /\ hp s' x = None /\ In c (report X)) /\
    (forall x X, hp (R d) x = Some X -> hp s' x = None -> incl (report X) C) /\
    incl L an /\ (has_recv d = false -> L = []).
Proof.
  induction qd as [|q qd IH]; intros d e from did id an qs H D me.
  - cbn [questions]. exists (R d), (ifs d), (ifs_time d), [], (disco d), qs, []. rewrite !app_nil_r. split; [destruct d; reflexivity|]. split; [exact H|]. split; [auto|]. split; [reflexivity|].
    split; [auto|]. split; [auto|]. split; [eauto|]. split; [auto|]. split; [auto|]. split; [reflexivity|]. split; [intros c []|]. split; [congruence|]. split; [intros x []|auto].
  - destruct (question_spec d e from did id q qd an qs H D) as (s1 & i1 & tm1 & L1 & did1 & E1 & Ii & Di & H1 & A1 & F1 & U1 & C1 & Il1 & Nl1 & _). fold me in H1, A1, U1, C1.
    rewrite E1. set (d1 := answered d s1 i1 tm1 (received d ++ L1) (disco d || is_disco q && negb match asked d q with [] => true | _ => false end)) in *. clear E1.
    assert (V1 : view d1 e = view d e).
    { unfold view, d1. destruct (e_ifs e) as [l|] eqn:Ee; [reflexivity|]. cbn [answered ifs]. destruct Ii as [->| ->]; [reflexivity|]. unfold view. rewrite Ee. reflexivity. }
    assert (M1 : is_me d1 e from = me) by (unfold me, is_me; rewrite V1; reflexivity).
    assert (D1 : did1 = true -> ifs d1 = view d1 e) by (intros K; rewrite V1; apply Di; exact K).
    set (qs1 := fold_left (qmove me q an (hp (R d))) (asked d q) qs) in *.
    set (dead := loses me q an (hp (R d)) (asked d q)) in *.
    destruct (IH d1 e from did1 id an qs1 H1 D1) as (s' & i & tm & L & b & qs' & C & E' & H' & Ii' & F' & P1 & P2 & P3 & P4 & P5 & P6 & P7 & P8 & P9 & P10).
    rewrite M1 in *. cbn [d1 answered R received ifs] in E', Ii', F', P1, P2, P3, P4, P5, P6, P7, P8, P9, P10.
    assert (TB : forall q' x X, targets d1 q' x X -> exists X', targets d q' x X' /\ nolink X = nolink X') by (intros q' x X T; unfold d1 in T; eapply targets_back; eassumption).
    assert (LB : forall x X, lost d1 me qd an x X -> exists X', lost d me (q :: qd) an x X' /\ nolink X = nolink X').
    { intros x X (q' & I & T & Dq & Y). destruct (TB _ _ _ T) as (X' & T' & K). exists X'. split; [|exact K]. exists q'. split; [right; exact I|]. split; [exact T'|]. split; [exact Dq|].
      rewrite <- (yields_nolink _ _ _ _ _ K). exact Y. }
    assert (Dead : forall x, In x dead -> exists X, lost d me (q :: qd) an x X).
    { intros x I. apply loses_in in I; [|apply H]. destruct I as (X & T & Dq & Y). exists X, q. split; [left; reflexivity|]. auto. }
    assert (Gone : forall x, In x dead -> hp s1 x = None).
    { intros x I. specialize (A1 x). unfold vanish, upon in A1. apply mem_iff in I. rewrite I in A1. destruct (hp s1 x); [|reflexivity]. destruct (hp (R d) x); discriminate A1. }
    assert (Stays : forall x, hp s1 x = None -> hp s' x = None).
    { intros x N. destruct (P1 x) as [K|[K _]]; [|exact K]. rewrite N in K. destruct (hp s' x); [discriminate|reflexivity]. }
    assert (Q1 : forall x k, In x (qs1 k) <-> lands (goes me q an (hp (R d)) (asked d q) x) k (In x (qs k))).
    { intros x k. apply qmoves_in; [apply asked_nodup; apply H|apply (qk_nodup _ _ (ri_q _ _ H))]. }
    assert (G1 : forall x w, goes me q an (hp (R d)) (asked d q) x = Some w -> exists X, targets d q x X /\ where_to me q an X = Some w).
    { intros x w G. unfold goes in G. destruct (mem x (asked d q)) eqn:M; [|discriminate]. apply mem_iff in M. apply asked_in in M; [|apply H]. destruct M as (A & X & EX & MX).
      rewrite EX in G. exists X. split; [split; auto|exact G]. }
    assert (W1 : forall X k, where_to me q an X = Some (Some k) -> (is_disco q = true \/ replies q an X = true) /\ send_queue X = Some k).
    { intros X k W. unfold where_to in W. destruct (is_disco q); [destruct (send_queue X); [injection W as ->; auto|discriminate]|].
      destruct (yields me q an X); [discriminate|]. destruct (replies q an X); [destruct (send_queue X); [injection W as ->; auto|discriminate]|discriminate]. }
    assert (W2 : forall X, where_to me q an X = Some None -> is_disco q = false /\ yields me q an X = true).
    { intros X W. unfold where_to in W. destruct (is_disco q); [destruct (send_queue X); discriminate|].
      destruct (yields me q an X); [auto|]. destruct (replies q an X); [destruct (send_queue X); discriminate|discriminate]. }
    rewrite <- app_assoc in E'.
    exists s', i, tm, (L1 ++ L), b, qs', (flat_map (at_rec (hp (R d)) report) dead ++ C).
    split; [unfold d1 in E'; exact E'|]. split; [exact H'|]. split. { destruct Ii' as [->| ->]; [exact Ii|]. rewrite V1. auto. } split; [congruence|].
    split. { intros x. destruct (P1 x) as [K|[K (X & Lx)]].
      - specialize (A1 x). rewrite A1 in K. unfold vanish, upon in K. destruct (hp (R d) x) as [X|] eqn:EX; [|left; exact K]. destruct (mem x dead) eqn:M; [|left; exact K].
        right. split; [destruct (hp s' x); [discriminate|reflexivity]|]. apply Dead. apply mem_iff. exact M.
      - right. split; [exact K|]. destruct (LB _ _ Lx) as (X' & Lx' & _). eauto. }
    split. { intros x k I. destruct (P2 x k I) as [K|(q' & X & I' & T & Rp & S)].
      - apply Q1 in K. destruct (goes me q an (hp (R d)) (asked d q) x) as [[k'|]|] eqn:G; cbn [lands] in K; [|tauto|tauto]. subst k'. right.
        destruct (G1 _ _ G) as (X & T & W). destruct (W1 _ _ W) as [A B]. exists q, X. split; [left; reflexivity|]. auto.
      - right. destruct (TB _ _ _ T) as (X' & T' & K). exists q', X'. split; [right; exact I'|]. split; [exact T'|]. rewrite <- (replies_nolink _ _ _ _ K), <- (send_queue_nolink _ _ K). auto. }
    split. { intros x k I. destruct (goes me q an (hp (R d)) (asked d q) x) as [[k'|]|] eqn:G.
      - apply (P3 x k'). apply Q1. rewrite G. reflexivity.
      - right. apply Stays. apply Gone. destruct (G1 _ _ G) as (X & T & W). destruct (W2 _ W). apply loses_in; [apply H|]. eauto.
      - apply (P3 x k). apply Q1. rewrite G. exact I. }
    split. { intros u I. destruct (P4 u I) as [K|(q' & X & I' & T & Dq & Pt & Id & To)].
      - rewrite U1 in K. apply in_app_or in K as [K|K].
        + right. unfold unicasts in K. destruct (asked d q) as [|r0 l0] eqn:El; [destruct K|]. destruct dead; [|destruct K].
          destruct (is_disco q) eqn:Dq; [destruct K|]. destruct (Z.eqb_spec (port from) 5353); [destruct K|]. destruct K as [<-|[]].
          assert (I0 : In r0 (asked d q)) by (rewrite El; left; reflexivity). apply asked_in in I0; [|apply H]. destruct I0 as (A & X & EX & MX).
          exists q, X. split; [left; reflexivity|]. split; [split; auto|]. auto.
        + left. apply filter_In in K. apply K.
      - right. destruct (TB _ _ _ T) as (X' & T' & K). exists q', X'. split; [right; exact I'|]. auto. }
    split. { intros u I. destruct (mem (u_r u) dead) eqn:M.
      - right. apply Stays. apply Gone. apply mem_iff. exact M.
      - apply P5. rewrite U1. apply in_or_app. right. apply filter_In. rewrite M. auto. }
    split; [rewrite P6, C1, app_assoc; reflexivity|].
    split. { intros c I. apply in_app_or in I as [I|I].
      - apply in_flat_map in I as (x & Ix & Ic). unfold at_rec in Ic. destruct (hp (R d) x) as [X|] eqn:EX; [|destruct Ic]. exists x, X. destruct (Dead x Ix) as (X' & Lx).
        assert (X' = X) by (destruct Lx as (q' & _ & (_ & EX' & _) & _); congruence). subst X'. split; [exact Lx|]. split; [apply Stays; apply Gone; exact Ix|exact Ic].
      - destruct (P7 c I) as (x & X & Lx & N & Ic). destruct (LB _ _ Lx) as (X' & Lx' & K). exists x, X'. split; [exact Lx'|]. split; [exact N|]. rewrite <- (report_nolink _ _ K). exact Ic. }
    split. { intros x X EX N. destruct (mem x dead) eqn:M.
      - apply mem_iff in M. apply incl_appl. intros c Ic. apply in_flat_map. exists x. split; [exact M|]. unfold at_rec. rewrite EX. exact Ic.
      - pose proof (A1 x) as A. unfold vanish, upon in A. rewrite EX, M in A. destruct (hp s1 x) as [Y|] eqn:EY; [|discriminate]. cbn [option_map] in A.
        assert (K : nolink Y = nolink X) by exact (f_equal (fun o => match o with Some y => y | None => nolink Y end) A).
        apply incl_appr. rewrite <- (report_nolink _ _ K). apply (P8 x Y EY N). }
    split; [apply incl_app; assumption|]. intros K. rewrite (Nl1 K). apply P10. exact K.
Qed.

(* When no record is withdrawn *)
Definition quiet (d : daemon) (me : bool) (qd : list question) (an : list resource) : Prop :=
  forall q x X, In q qd -> targets d q x X -> is_disco q = true \/ yields me q an X = false.

Lemma asked_ext : forall d d' q, class d' = class d -> pub (R d') = pub (R d) -> hframe (hp (R d)) (hp (R d')) -> asked d' q = asked d q.
Proof.
  intros d d' q E1 E2 F. unfold asked. rewrite E1. destruct (q_class q =? class d); [|reflexivity]. unfold chain_of. rewrite E2. apply cands_ext. intros x _. symmetry. apply F.
Qed.
Lemma qmove_ext : forall me q an h h' l qs, hframe h h' -> fold_left (qmove me q an h') l qs = fold_left (qmove me q an h) l qs.
Proof.
  intros me q an h h' l qs F. unfold qmove. destruct (is_disco q); [apply qsent_ext|apply qsteps_ext]; intros x _; symmetry; apply F.
Qed.
Lemma after_none : forall h h', after (vanish []) h h' -> hframe h h'.
Proof. intros h h' A x. specialize (A x). unfold vanish, upon in A. cbn [mem existsb] in A. rewrite A. destruct (h x); reflexivity. Qed.

Definition replies_to (d : daemon) (me : bool) (an : list resource) (qd : list question) (qs : queue -> list nat) : queue -> list nat :=
  fold_left (fun qs q => fold_left (qmove me q an (hp (R d))) (asked d q) qs) qd qs.

Lemma replies_to_ext : forall d d' me an qd qs, (forall q, asked d' q = asked d q) -> hframe (hp (R d)) (hp (R d')) -> replies_to d' me an qd qs = replies_to d me an qd qs.
Proof.
  intros d d' me an qd qs As F. unfold replies_to. revert qs. induction qd as [|q qd IH]; intros qs; [reflexivity|]. cbn [fold_left]. rewrite As, (qmove_ext _ _ _ _ _ _ _ F). apply IH.
Qed.

Lemma questions_quiet : forall qd d e from did id an qs, rinv (R d) qs -> (did = true -> ifs d = view d e) -> quiet d (is_me d e from) qd an ->
  exists s' i tm L,
    questions d e from did id qd an = Ok (answered d s' i tm (received d ++ L) (disco d || existsb (fun q => is_disco q && negb (match asked d q with [] => true | _ => false end)) qd)) /\
    rinv s' (replies_to d (is_me d e from) an qd qs) /\ hframe (hp (R d)) (hp s') /\ pub s' = pub (R d) /\
    uans s' = rev (flat_map (fun q => unicasts from id q (asked d q) []) qd) ++ uans (R d) /\ conflicts s' = conflicts (R d).
Proof.
  induction qd as [|q qd IH]; intros d e from did id an qs H D K.
  - cbn [questions]. exists (R d), (ifs d), (ifs_time d), []. cbn [existsb flat_map rev app]. rewrite app_nil_r, orb_false_r. split; [destruct d; reflexivity|]. split; [exact H|]. split; [apply hframe_refl|]. auto.
  - destruct (question_spec d e from did id q qd an qs H D) as (s1 & i1 & tm1 & L1 & did1 & E1 & Ii & Di & H1 & A1 & F1 & U1 & C1 & Il1 & Nl1 & P1).
    set (me := is_me d e from) in *.
    assert (Dd : loses me q an (hp (R d)) (asked d q) = []).
    { destruct (loses me q an (hp (R d)) (asked d q)) as [|x l] eqn:El; [reflexivity|]. assert (I : In x (loses me q an (hp (R d)) (asked d q))) by (rewrite El; left; reflexivity).
      apply loses_in in I; [|apply H]. destruct I as (X & T & N1 & N2). destruct (K q x X (or_introl eq_refl) T); congruence. }
    rewrite Dd in *. apply after_none in A1. specialize (P1 eq_refl). cbn [flat_map] in C1. rewrite app_nil_r in C1.
    rewrite (filter_all _ (fun u => negb (mem (u_r u) []))) in U1 by reflexivity.
    rewrite E1. set (b1 := disco d || is_disco q && negb match asked d q with [] => true | _ => false end) in *. set (d1 := answered d s1 i1 tm1 (received d ++ L1) b1) in *. clear E1.
    assert (V1 : view d1 e = view d e).
    { unfold view, d1. destruct (e_ifs e) as [l|] eqn:Ee; [reflexivity|]. cbn [answered ifs]. destruct Ii as [->| ->]; [reflexivity|]. unfold view. rewrite Ee. reflexivity. }
    assert (M1 : is_me d1 e from = me) by (unfold me, is_me; rewrite V1; reflexivity).
    assert (D1 : did1 = true -> ifs d1 = view d1 e) by (intros K'; rewrite V1; apply Di; exact K').
    assert (As : forall q', asked d1 q' = asked d q') by (intros q'; apply asked_ext; [reflexivity|exact P1|exact A1]).
    destruct (IH d1 e from did1 id an _ H1 D1) as (s' & i & tm & L & E' & H' & F' & P' & U' & C').
    { rewrite M1. intros q' x X I T. unfold d1 in T. destruct (targets_back _ _ _ _ _ _ [] _ _ _ (after_hframe _ _ A1) T) as (X' & T' & KK).
      rewrite (yields_nolink _ _ _ _ _ KK). apply (K q' x X'); [right; exact I|exact T']. }
    rewrite M1 in H'. cbn [d1 answered R received ifs disco uans] in E', H', F', P', U', C'.
    exists s', i, tm, (L1 ++ L). split; [|split; [|split; [|split; [|split]]]].
    + rewrite E'. unfold d1, answered. cbn. rewrite <- app_assoc. f_equal. f_equal. unfold b1. rewrite <- orb_assoc. f_equal. f_equal.
      clear -As. induction qd as [|a qd IH]; [reflexivity|]. cbn [existsb]. rewrite As, IH. reflexivity.
    + unfold replies_to. cbn [fold_left]. fold (replies_to d me an qd (fold_left (qmove me q an (hp (R d))) (asked d q) qs)).
      rewrite <- (replies_to_ext d d1) by (exact As || exact A1). exact H'.
    + eapply hframe_trans; eassumption.
    + congruence.
    + rewrite U', U1. cbn [flat_map]. rewrite rev_app_distr, <- app_assoc. f_equal.
      * f_equal. clear -As. induction qd as [|a qd IH]; [reflexivity|]. cbn [flat_map]. rewrite As, IH. reflexivity.
      * f_equal. unfold unicasts. destruct (asked d q); [reflexivity|]. destruct (is_disco q || (port from =? 5353)); reflexivity.
    + congruence.
Qed.
