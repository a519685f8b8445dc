(* What processing a received query does to the published records. *)
From Verif Require Import Base Lemmas Hash HashProofs Wire Rec Qry Out In Api RecInv RecSafe RecOps RecAddr OutSafe QryInv QryOps CacheOps QryReg QryLoop.

(* The daemon with other records, interface snapshot and log of received records *)
Definition into (d : daemon) (s : recs) (i : option (list ifaddr)) (tm : Z) (rc : list resource) : daemon :=
  mkdaemon s (Q d) (now d) (expireall d) (class d) (frame d) (is_shutdown d) (disco d) (d_family d) (d_addr d) (d_addr6 d) i tm (has_recv d) rc.
Lemma into_id : forall d, into d (R d) (ifs d) (ifs_time d) (received d) = d.
Proof. intros []. reflexivity. Qed.

(* ------------------------------------------------------------------ *)
(* Is the sender this host? *)

(* The interfaces after looking again *)
Definition view (d : daemon) (e : env) : option (list ifaddr) := match e_ifs e with Some l => Some l | None => ifs d end.
Definition own_addr (d : daemon) (from : addr) : bool :=
  bytes_eqb (ip from) (if family from =? AF_INET6 then d_addr6 d else d_addr d).
Definition listed (l : option (list ifaddr)) (from : addr) : bool :=
  match l with
  | None => false
  | Some l => existsb (fun i => (if_family i =? (if family from =? AF_INET6 then AF_INET6 else AF_INET)) && bytes_eqb (if_ip i) (ip from)) l
  end.
Definition is_me (d : daemon) (e : env) (from : addr) : bool := own_addr d from || listed (view d e) from.

Lemma refresh_into : forall d e f, exists i tm, refresh d e f = into d (R d) i tm (received d) /\ (i = ifs d \/ i = view d e).
Proof.
  intros d e f. unfold refresh, view. destruct (_ && _); [exists (ifs d), (ifs_time d); rewrite into_id; auto|].
  destruct (e_ifs e) as [l|]; [|exists (ifs d), (ifs_time d); rewrite into_id; auto]. exists (Some l), (if fst (now d) =? 0 then e_time e else fst (now d)). destruct d. auto.
Qed.
Lemma refresh_force : forall d e, exists tm, refresh d e true = into d (R d) (view d e) tm (received d).
Proof.
  intros d e. unfold refresh, view. rewrite andb_false_r. destruct (e_ifs e) as [l|].
  - exists (if fst (now d) =? 0 then e_time e else fst (now d)). destruct d. reflexivity.
  - exists (ifs_time d). symmetry. apply into_id.
Qed.

Lemma is_local_spec : forall d e from, exists i tm, is_local d e from = (into d (R d) i tm (received d), own_addr d from || listed i from) /\ (i = ifs d \/ i = view d e).
Proof.
  intros d e from. destruct (refresh_into d e false) as (i & tm & E & I). unfold is_local, own_addr, listed. rewrite E.
  destruct (family from =? AF_INET6); destruct (bytes_eqb (ip from) _) eqn:B; cbn [orb].
  1,3: exists (ifs d), (ifs_time d); rewrite into_id; auto.
  all: exists i, tm; split; [reflexivity|exact I].
Qed.

Lemma recheck_spec : forall d e from did, (did = true -> ifs d = view d e) ->
  exists tm, recheck d e from did = (into d (R d) (view d e) tm (received d), is_me d e from).
Proof.
  intros d e from did D. unfold recheck, is_me. destruct did.
  - destruct (is_local_spec d e from) as (i & tm & E & I). assert (Iv : i = view d e) by (destruct I; [rewrite <- D by reflexivity|]; assumption). subst i. rewrite E. eauto.
  - destruct (refresh_force d e) as (tm & E). rewrite E. set (d1 := into d (R d) (view d e) tm (received d)).
    assert (Vd : view d1 e = view d e) by (unfold view, d1; destruct (e_ifs e) as [l|] eqn:Ee; [reflexivity|]; cbn [into ifs]; unfold view; rewrite Ee; reflexivity).
    destruct (is_local_spec d1 e from) as (i & tm' & E' & I). assert (Iv : i = view d e) by (destruct I as [I|I]; [exact I|congruence]).
    rewrite E', Iv. exists tm'. reflexivity.
Qed.

(* ------------------------------------------------------------------ *)
(* Records asked for *)

Definition cands (h : heap) (name : list Z) (type : Z) (l : list nat) : list nat := filter (holds h (fun X => match_rec name type (rr X))) l.

Lemma find_rec_hd : forall h l host type, all_live h l -> find_rec h l host type = Ok (hd_error (cands h host type l)).
Proof.
  intros h l host type. induction l as [|x l IH]; intros L; [reflexivity|]. apply all_live_cons in L as [(X & E) L]. cbn [find_rec]. rewrite (hget_some _ _ _ E). cbn [bind].
  unfold cands. cbn [filter]. rewrite (holds_at _ _ _ _ E). destruct (match_rec host type (rr X)); [reflexivity|apply IH; exact L].
Qed.
Lemma match_rec_iff : forall n ty a, match_rec n ty a = true <-> a_name a = n /\ (ty = a_type a \/ ty = QTYPE_ANY).
Proof. intros n ty a. unfold match_rec. rewrite andb_true_iff, orb_true_iff, bytes_eqb_eq, !Z.eqb_eq. tauto. Qed.
Lemma cands_in : forall h n ty l x, In x (cands h n ty l) <-> In x l /\ exists X, h x = Some X /\ match_rec n ty (rr X) = true.
Proof.
  intros h n ty l x. unfold cands. rewrite filter_In. unfold holds. destruct (h x) as [X|]; split.
  - intros [A B]. eauto.
  - intros [A (Y & E & B)]. injection E as <-. auto.
  - intros [_ B]. discriminate.
  - intros [_ (Y & E & _)]. discriminate.
Qed.

Lemma filter_split : forall (A : Type) (p : A -> bool) l c cs, filter p l = c :: cs -> exists a b, l = a ++ c :: b /\ filter p a = [] /\ filter p b = cs /\ p c = true.
Proof.
  intros A p l. induction l as [|x l IH]; intros c cs E; [discriminate|]. cbn [filter] in E. destruct (p x) eqn:P.
  - injection E as -> E. exists [], l. auto.
  - destruct (IH c cs E) as (a & b & -> & A1 & A2 & A3). exists (x :: a), b. cbn [app filter]. rewrite P. auto.
Qed.

Lemma r_next_first : forall s host type, pok s -> r_next s None host type = Ok (hd_error (cands (hp s) host type (chain_of s host))).
Proof. intros s host type H. unfold r_next. apply find_rec_hd. apply chain_of_live. exact H. Qed.

Lemma r_next_then : forall s host type pre suf c cs, pok s -> chain_of s host = pre ++ suf -> cands (hp s) host type suf = c :: cs ->
  exists a b X, suf = a ++ c :: b /\ cands (hp s) host type b = cs /\ r_next s (Some c) host type = Ok (hd_error cs) /\ hp s c = Some X /\ match_rec host type (rr X) = true.
Proof.
  intros s host type pre suf c cs H E C. destruct (filter_split _ _ _ _ _ C) as (a & b & -> & _ & Cb & Pc). exists a, b.
  assert (X : exists X, hp s c = Some X /\ match_rec host type (rr X) = true) by (unfold holds in Pc; destruct (hp s c) as [X|]; [eauto|discriminate]).
  destruct X as (X & EX & M). exists X. split; [reflexivity|]. split; [exact Cb|]. split; [|auto]. unfold r_next. rewrite (hget_some _ _ _ EX). cbn [bind].
  pose proof M as M'. apply match_rec_iff in M' as [Mn _]. rewrite Mn, E.
  pose proof (pok_chain_nodup s host H) as ND. rewrite E, app_assoc in ND. pose proof (NoDup_remove_2 _ _ _ ND) as Nc.
  rewrite app_assoc, tail_after_mid by (intros K; apply Nc; apply in_or_app; left; exact K). rewrite find_rec_hd; [unfold cands in *; rewrite Cb; reflexivity|].
  intros y I. apply (chain_of_live s host H). rewrite E. apply in_or_app. right. apply in_or_app. right. right. exact I.
Qed.

Lemma cands_ext : forall h h' n ty l, (forall x, In x l -> option_map nolink (h' x) = option_map nolink (h x)) -> cands h' n ty l = cands h n ty l.
Proof.
  intros h h' n ty l E. unfold cands. apply holds_ext; [|exact E]. intros X Y K. apply nolink_fields in K. destruct K as (K & _). rewrite K. reflexivity.
Qed.

(* ------------------------------------------------------------------ *)
(* What a question does to a record *)

(* An answer of the query has other data, or this data *)
Definition clash (q : question) (an : list resource) (X : mrec) : bool := existsb (fun a => same_q q a && negb (a_match a (rr X))) an.
Definition known (q : question) (an : list resource) (X : mrec) : bool := existsb (fun a => same_q q a && a_match a (rr X)) an.
Definition watching (X : mrec) : bool := probes X && negb (modified X).

(* Withdrawn because of a conflict; queued for reply *)
Definition yields (me : bool) (q : question) (an : list resource) (X : mrec) : bool := watching X && clash q an X && negb me.
Definition replies (q : question) (an : list resource) (X : mrec) : bool := negb (watching X) && negb (known q an X).

Lemma view_into : forall d e s tm rc, view (into d s (view d e) tm rc) e = view d e.
Proof. intros d e s tm rc. unfold view. destruct (e_ifs e) as [l|]; reflexivity. Qed.
Lemma view_into' : forall d e s i tm rc, (i = ifs d \/ i = view d e) -> view (into d s i tm rc) e = view d e.
Proof. intros d e s i tm rc [->| ->]; [|apply view_into]. unfold view. destruct (e_ifs e); reflexivity. Qed.
Lemma is_me_into : forall d e from s i tm rc, (i = ifs d \/ i = view d e) -> is_me (into d s i tm rc) e from = is_me d e from.
Proof. intros d e from s i tm rc I. unfold is_me. rewrite view_into' by exact I. reflexivity. Qed.

Lemma probe_check_spec : forall an d e from did q r X, hp (R d) r = Some X -> (did = true -> ifs d = view d e) ->
  let c := clash q an X && negb (is_me d e from) in
  exists i tm did', (i = ifs d \/ i = view d e) /\ (did' = true -> i = view d e) /\
    probe_check d e from did q r an =
      if c then s <- r_conflict (R d) (now d) r;; Ok (into d s i tm (received d), did', true)
      else Ok (into d (R d) i tm (received d), did', false).
Proof.
  induction an as [|a an IH]; intros d e from did q r X E D c; unfold c, clash; cbn [probe_check existsb].
  - exists (ifs d), (ifs_time d), did. rewrite into_id. auto.
  - destruct (same_q q a) eqn:S; cbn [negb andb orb]; [|apply (IH d e from did q r X E D)].
    rewrite (hget_some _ _ _ E). cbn [bind]. destruct (a_match a (rr X)) eqn:M; cbn [negb orb]; [apply (IH d e from did q r X E D)|].
    destruct (recheck_spec d e from did D) as (tm & Er). rewrite Er. destruct (is_me d e from) eqn:Me; cbn [negb andb].
    + set (d1 := into d (R d) (view d e) tm (received d)).
      destruct (IH d1 e from true q r X E) as (i & tm' & did' & I & Di & Ep). { intros _. symmetry. apply view_into. }
      assert (Me1 : is_me d1 e from = true) by (unfold d1; rewrite is_me_into; auto). rewrite Me1, andb_false_r in Ep. rewrite Ep.
      exists i, tm', did'. assert (Iv : i = view d e) by (destruct I as [I|I]; [exact I|]; rewrite I; apply view_into). repeat split; auto.
    + exists (view d e), tm, true. split; [auto|]. split; [auto|]. cbn [into R now]. destruct (r_conflict (R d) (now d) r); reflexivity.
Qed.

Lemma known_check_spec : forall an d q X,
  exists L, known_check d q X an = (into d (R d) (ifs d) (ifs_time d) (received d ++ L), known q an X) /\ incl L an /\ (has_recv d = false -> L = []).
Proof.
  induction an as [|a an IH]; intros d q X; unfold known; cbn [known_check existsb].
  - exists []. rewrite app_nil_r, into_id. split; [reflexivity|]. split; [intros x []|auto].
  - destruct (same_q q a); cbn [negb andb orb].
    + assert (RC : exists L, (if has_recv d then add_received d a else d) = into d (R d) (ifs d) (ifs_time d) (received d ++ L) /\ incl L [a] /\ (has_recv d = false -> L = [])).
      { destruct (has_recv d) eqn:Hr; [exists [a]|exists []]; (split; [destruct d; cbn in Hr; subst; unfold add_received, into; cbn; rewrite ?app_nil_r; reflexivity|]); (split; [apply incl_refl || intros x []|congruence || auto]). }
      destruct RC as (L & El & Il & Nl). rewrite El. destruct (a_match a (rr X)).
      * exists L. split; [reflexivity|]. split; [|exact Nl]. intros x I. left. destruct (Il x I) as [->|[]]. reflexivity.
      * destruct (IH (into d (R d) (ifs d) (ifs_time d) (received d ++ L)) q X) as (L' & E' & I' & N'). rewrite E'. exists (L ++ L'). rewrite app_assoc. split; [reflexivity|]. split.
        -- apply incl_app; [intros x I; left; destruct (Il x I) as [->|[]]; reflexivity|intros x I; right; apply I'; exact I].
        -- intros Hr. rewrite (Nl Hr). apply N'. exact Hr.
    + destruct (IH d q X) as (L & E' & I' & N'). exists L. split; [exact E'|]. split; [intros x I; right; apply I'; exact I|exact N'].
Qed.

(* ------------------------------------------------------------------ *)
(* Conflicts *)

Definition report (X : mrec) : list (nat * list Z * Z) := match conflict X with Some cb => [(cb, a_name (rr X), a_type (rr X))] | None => [] end.

Lemma conflict_probing : forall s qs t r X, rinv s qs -> hp s r = Some X -> probes X = true ->
  exists s', r_conflict s t r = Ok s' /\ rinv s' (on Probing (remove1 r (qs Probing)) qs) /\
    hp s' r = None /\ hbut r (hp s) (hp s') /\ fresh s' = fresh s /\
    uans s' = filter (fun u => negb (Nat.eqb (u_r u) r)) (uans s) /\ conflicts s' = conflicts s ++ report X /\
    pub s' = upd (pub s) (rbucket (a_name (rr X))) (remove1 r (nth (rbucket (a_name (rr X))) (pub s) [])).
Proof.
  intros s qs t r X H E P. unfold r_conflict, report. rewrite (hget_some _ _ _ E). cbn [bind].
  pose proof (ri_u _ _ H r X E) as U. pose proof P as P'. apply probes_iff in P'; [|apply U].
  pose proof (ur_conflict _ _ _ U ltac:(lia)) as C. destruct (conflict X) as [cb|]; [|congruence].
  set (s1 := add_conflict s (cb, a_name (rr X), a_type (rr X))).
  assert (H1 : rinv s1 qs) by (eapply rinv_other; [exact H|reflexivity..|intros []; reflexivity]).
  destruct (mdnsd_done_probing s1 qs t r X H1 E P) as (s' & E' & H' & A1 & A2 & A3 & A4 & A5 & A6). exists s'. auto 10.
Qed.

Lemma conflict_sends : forall s qs t r X, rinv s qs -> hp s r = Some X -> probes X = false -> unique X <> 0 ->
  exists s', r_conflict s t r = Ok s' /\ rinv s' (sent_queues X r qs) /\
    hbut r (hp s) (hp s') /\ (exists Y, hp s' r = Some Y /\ nolink Y = nolink (gone X)) /\ fresh s' = fresh s /\
    uans s' = uans s /\ conflicts s' = conflicts s ++ report X /\ pub s' = pub s.
Proof.
  intros s qs t r X H E P N. unfold r_conflict, report. rewrite (hget_some _ _ _ E). cbn [bind].
  pose proof (ur_conflict _ _ _ (ri_u _ _ H r X E) N) as C. destruct (conflict X) as [cb|]; [|congruence].
  set (s1 := add_conflict s (cb, a_name (rr X), a_type (rr X))).
  assert (H1 : rinv s1 qs) by (eapply rinv_other; [exact H|reflexivity..|intros []; reflexivity]).
  destruct (mdnsd_done_sends s1 qs t r X H1 E P) as (s' & E' & H' & A1 & A2 & A3 & A4 & A5 & A6). exists s'. auto 10.
Qed.

(* ------------------------------------------------------------------ *)
(* The loop over the records asked for *)

Definition yielding (me : bool) (q : question) (an : list resource) (h : heap) (l : list nat) : list nat := filter (holds h (yields me q an)) l.
Definition qstep (me : bool) (q : question) (an : list resource) (h : heap) (qs : queue -> list nat) (c : nat) : queue -> list nat :=
  match h c with
  | Some X => if yields me q an X then on Probing (remove1 c (qs Probing)) qs
              else if replies q an X then sent_queues X c qs else qs
  | None => qs
  end.
Definition vanish (l : list nat) : nat -> mrec -> option mrec := upon l (fun _ => None).

Lemma yields_nolink : forall me q an X Y, nolink X = nolink Y -> yields me q an X = yields me q an Y.
Proof. intros me q an X Y K. apply nolink_fields in K. destruct K as (K1 & K2 & K3 & _). unfold yields, watching, probes, clash. rewrite K1, K2, K3. reflexivity. Qed.
Lemma replies_nolink : forall q an X Y, nolink X = nolink Y -> replies q an X = replies q an Y.
Proof. intros q an X Y K. apply nolink_fields in K. destruct K as (K1 & K2 & K3 & _). unfold replies, watching, probes, known. rewrite K1, K2, K3. reflexivity. Qed.
Lemma sent_queues_nolink : forall X Y r qs, nolink X = nolink Y -> sent_queues X r qs = sent_queues Y r qs.
Proof. intros X Y r qs K. apply nolink_fields in K. destruct K as (_ & K2 & _ & K3 & _). unfold sent_queues, send_queue. rewrite K2, K3. reflexivity. Qed.
Lemma report_nolink : forall X Y, nolink X = nolink Y -> report X = report Y.
Proof. intros X Y K. apply nolink_fields in K. destruct K as (K1 & _ & _ & _ & K2 & _). unfold report. rewrite K1, K2. reflexivity. Qed.

Lemma onolink_some : forall (a : option mrec) X Y, option_map nolink a = option_map nolink (Some X) -> a = Some Y -> nolink Y = nolink X.
Proof. intros a X Y K E. subst a. exact (f_equal (fun o => match o with Some y => y | None => nolink X end) K). Qed.

Lemma qsteps_ext : forall me q an h h' l qs, (forall x, In x l -> option_map nolink (h' x) = option_map nolink (h x)) ->
  fold_left (qstep me q an h') l qs = fold_left (qstep me q an h) l qs.
Proof.
  intros me q an h h' l. induction l as [|c l IH]; intros qs E; [reflexivity|]. cbn [fold_left]. rewrite IH by (intros x I; apply E; right; exact I). f_equal.
  specialize (E c (or_introl eq_refl)). unfold qstep. destruct (h' c) as [X|], (h c) as [Y|]; try discriminate; [|reflexivity].
  pose proof (onolink_some _ _ _ E eq_refl) as K. rewrite (yields_nolink _ _ _ _ _ K), (replies_nolink _ _ _ _ K), (sent_queues_nolink _ _ _ _ K). reflexivity.
Qed.

Lemma chain_of_upd_same : forall s' s n i b, pub s' = upd (pub s) i b -> rbucket n = i -> (i < length (pub s))%nat -> chain_of s' n = b.
Proof. intros s' s n i b E B L. unfold chain_of. rewrite E, B. apply nth_upd_same. exact L. Qed.

Lemma remove1_mid : forall a (x : nat) b, ~ In x a -> remove1 x (a ++ x :: b) = a ++ b.
Proof.
  induction a as [|y a IH]; intros x b N; cbn [app remove1]; [rewrite Nat.eqb_refl; reflexivity|].
  destruct (Nat.eqb_spec y x) as [->|D]; [destruct N; left; reflexivity|]. rewrite IH; [reflexivity|]. intros I. apply N. right. exact I.
Qed.

Lemma answer_loop_spec : forall cs fuel d e from did q an conf qs pre suf,
  rinv (R d) qs -> chain_of (R d) (q_name q) = pre ++ suf -> cands (hp (R d)) (q_name q) (q_type q) suf = cs -> (length cs < fuel)%nat ->
  (did = true -> ifs d = view d e) ->
  let dead := yielding (is_me d e from) q an (hp (R d)) cs in
  exists s' i tm L did',
    answer_loop fuel d e from did q an (hd_error cs) conf = Ok (into d s' i tm (received d ++ L), did', conf || negb (match dead with [] => true | _ => false end)) /\
    (i = ifs d \/ i = view d e) /\ (did' = true -> i = view d e) /\
    rinv s' (fold_left (qstep (is_me d e from) q an (hp (R d))) cs qs) /\ after (vanish dead) (hp (R d)) (hp s') /\ fresh s' = fresh (R d) /\
    uans s' = filter (fun u => negb (mem (u_r u) dead)) (uans (R d)) /\
    conflicts s' = conflicts (R d) ++ flat_map (at_rec (hp (R d)) report) dead /\
    incl L an /\ (has_recv d = false -> L = []) /\ (dead = [] -> pub s' = pub (R d)).
Proof.
  induction cs as [|c cs IH]; intros fuel d e from did q an conf qs pre suf H Ec Ecs Lf D dead; destruct fuel as [|fuel]; try (cbn [length] in Lf; lia); cbn [hd_error answer_loop].
  - exists (R d), (ifs d), (ifs_time d), [], did. unfold dead, yielding. cbn [filter flat_map fold_left]. rewrite !app_nil_r, into_id. cbn [negb]. rewrite orb_false_r. split; [reflexivity|]. split; [auto|].
    split; [exact D|]. split; [exact H|]. split; [intros x; unfold vanish, upon; cbn [mem existsb]; destruct (hp (R d) x); reflexivity|]. split; [reflexivity|].
    split; [symmetry; clear; induction (uans (R d)) as [|u l IH]; [reflexivity|]; cbn [filter mem existsb negb]; f_equal; exact IH|]. split; [reflexivity|]. split; [intros x []|]. auto.
  - destruct (r_next_then (R d) (q_name q) (q_type q) pre suf c cs (ri_p _ _ H) Ec Ecs) as (a & b & X & -> & Eb & En & EX & MX). rewrite En. cbn [bind].
    rewrite (hget_some _ _ _ EX). cbn [bind]. fold (watching X).
    pose proof (pok_chain_nodup (R d) (q_name q) (ri_p _ _ H)) as ND. rewrite Ec, app_assoc in ND. pose proof (NoDup_remove_2 _ _ _ ND) as Nc. rewrite in_app_iff in Nc.
    assert (Ncs : ~ In c cs) by (rewrite <- Eb, cands_in; tauto).
    assert (Lf' : (length cs < fuel)%nat) by (cbn [length] in Lf; lia).
    (* one step, then the others *)
    assert (Rec : forall s1 i1 tm1 L1 did1 qs1,
      rinv s1 qs1 -> hbut c (hp (R d)) (hp s1) -> (exists pre1, chain_of s1 (q_name q) = pre1 ++ b) -> (i1 = ifs d \/ i1 = view d e) -> (did1 = true -> i1 = view d e) ->
      fresh s1 = fresh (R d) -> incl L1 an -> (has_recv d = false -> L1 = []) ->
      forall conf1, exists s' i tm L did',
        answer_loop fuel (into d s1 i1 tm1 (received d ++ L1)) e from did1 q an (hd_error cs) conf1 =
          Ok (into d s' i tm (received d ++ L), did', conf1 || negb (match yielding (is_me d e from) q an (hp (R d)) cs with [] => true | _ => false end)) /\
        (i = ifs d \/ i = view d e) /\ (did' = true -> i = view d e) /\
        rinv s' (fold_left (qstep (is_me d e from) q an (hp (R d))) cs qs1) /\ after (vanish (yielding (is_me d e from) q an (hp (R d)) cs)) (hp s1) (hp s') /\ fresh s' = fresh (R d) /\
        uans s' = filter (fun u => negb (mem (u_r u) (yielding (is_me d e from) q an (hp (R d)) cs))) (uans s1) /\
        conflicts s' = conflicts s1 ++ flat_map (at_rec (hp (R d)) report) (yielding (is_me d e from) q an (hp (R d)) cs) /\
        incl L an /\ (has_recv d = false -> L = []) /\ (yielding (is_me d e from) q an (hp (R d)) cs = [] -> pub s' = pub s1)).
    { intros s1 i1 tm1 L1 did1 qs1 H1 B1 (pre1 & Ep) I1 D1 F1 Il Nl conf1. set (d1 := into d s1 i1 tm1 (received d ++ L1)).
      assert (XT : forall x, In x b -> option_map nolink (hp s1 x) = option_map nolink (hp (R d) x)).
      { intros x Ix. symmetry. apply B1. intros ->. tauto. }
      assert (XC : forall x, In x cs -> option_map nolink (hp s1 x) = option_map nolink (hp (R d) x)).
      { intros x Ix. apply XT. rewrite <- Eb in Ix. apply cands_in in Ix. apply Ix. }
      destruct (IH fuel d1 e from did1 q an conf1 qs1 pre1 b H1 Ep) as (s' & i & tm & L & did' & E' & Ii & Di & H' & A' & F' & U' & C' & L1' & L2' & P').
      { unfold d1. cbn [into R]. rewrite (cands_ext _ _ _ _ _ XT). exact Eb. } { exact Lf'. }
      { intros K. unfold d1. rewrite view_into' by exact I1. apply D1. exact K. }
      assert (Me : is_me d1 e from = is_me d e from) by (unfold d1; apply is_me_into; exact I1).
      assert (Yd : yielding (is_me d1 e from) q an (hp (R d1)) cs = yielding (is_me d e from) q an (hp (R d)) cs).
      { rewrite Me. unfold yielding. apply holds_ext; [intros Y Z; apply yields_nolink|exact XC]. }
      rewrite Yd in *. rewrite Me in *. unfold d1 in E', Ii, Di, H', A', F', U', C', L2', P'. cbn [into R received ifs has_recv] in E', Ii, Di, H', A', F', U', C', L2', P'.
      rewrite view_into' in Ii, Di by exact I1. rewrite <- app_assoc in E'.
      exists s', i, tm, (L1 ++ L), did'. split; [exact E'|]. split; [destruct Ii as [-> | ->]; [exact I1|auto]|]. split; [exact Di|].
      split; [rewrite (qsteps_ext _ _ _ (hp (R d)) (hp s1)) in H' by exact XC; exact H'|]. split; [exact A'|]. split; [congruence|]. split; [exact U'|].
      split. { rewrite C'. f_equal. apply flat_ext; [apply report_nolink|]. intros x Ix. apply XC. unfold yielding in Ix. apply filter_In in Ix. apply Ix. }
      split; [apply incl_app; assumption|]. split; [|exact P']. intros K. rewrite (Nl K), (L2' K). reflexivity. }
    assert (Stay : yields (is_me d e from) q an X = false -> dead = yielding (is_me d e from) q an (hp (R d)) cs).
    { intros Y. unfold dead, yielding. cbn [filter]. rewrite (holds_at _ _ _ _ EX), Y. reflexivity. }
    assert (AF : forall (s1 s' : recs) l, hframe (hp (R d)) (hp s1) -> after (vanish l) (hp s1) (hp s') -> after (vanish l) (hp (R d)) (hp s')).
    { intros s1 s' l F A x. rewrite (A x). specialize (F x). unfold vanish, upon. destruct (hp s1 x), (hp (R d) x); cbn [option_map] in F; try discriminate; [|reflexivity].
      destruct (mem x l); [reflexivity|]. symmetry. exact F. }
    destruct (watching X) eqn:W.
    + assert (PX : probes X = true) by (unfold watching in W; apply andb_true_iff in W; apply W).
      destruct (probe_check_spec an d e from did q c X EX D) as (i1 & tm1 & did1 & I1 & D1 & Ep). cbv zeta in Ep.
      assert (Ye : yields (is_me d e from) q an X = clash q an X && negb (is_me d e from)) by (unfold yields; rewrite W; reflexivity).
      rewrite Ep, <- Ye. destruct (yields (is_me d e from) q an X) eqn:Y.
      * destruct (conflict_probing (R d) qs (now d) c X H EX PX) as (s1 & E1 & H1 & N1 & B1 & F1 & U1 & C1 & P1). rewrite E1. cbn [bind].
        destruct (Rec s1 i1 tm1 [] did1 _ H1 B1) with (conf1 := conf || true) as (s' & i & tm & L & did' & E' & Ii & Di & H' & A' & F' & U' & C' & L1' & L2' & P'); auto.
        { exists (pre ++ a). apply match_rec_iff in MX as [Mn _]. rewrite Mn in P1. rewrite (chain_of_upd_same _ _ _ _ _ P1 eq_refl) by (rewrite (pk_len _ (ri_p _ _ H)); apply rbucket_lt).
          fold (chain_of (R d) (q_name q)). rewrite Ec, app_assoc. apply remove1_mid. tauto. }
        { intros x []. }
        assert (Dd : dead = c :: yielding (is_me d e from) q an (hp (R d)) cs).
        { unfold dead, yielding. cbn [filter]. rewrite (holds_at _ _ _ _ EX), Y. reflexivity. }
        rewrite app_nil_r in E'. exists s', i, tm, L, did'. rewrite E', Dd. cbn [negb fold_left]. split; [f_equal; f_equal; destruct conf; reflexivity|]. split; [exact Ii|]. split; [exact Di|].
        split. { unfold qstep at 2. rewrite EX, Y. exact H'. }
        split. { intros x. rewrite (A' x). unfold vanish, upon. cbn [mem existsb]. destruct (Nat.eqb_spec x c) as [->|Dx]; [rewrite N1, EX; reflexivity|].
          specialize (B1 x Dx). cbn [orb]. fold (mem x (yielding (is_me d e from) q an (hp (R d)) cs)). destruct (hp s1 x), (hp (R d) x); cbn [option_map] in B1; try discriminate; [|reflexivity].
          destruct (mem x _); [reflexivity|]. symmetry. exact B1. }
        split; [exact F'|]. split. { rewrite U', U1. clear. induction (uans (R d)) as [|u l IH]; [reflexivity|]. cbn [filter mem existsb].
          destruct (Nat.eqb (u_r u) c); cbn [negb orb filter]; [exact IH|]. destruct (negb (existsb _ _)) eqn:K; [unfold mem in *; rewrite K|unfold mem in *; rewrite K]; rewrite IH; reflexivity. }
        split. { rewrite C', C1. cbn [flat_map]. unfold at_rec at 2. rewrite EX, app_assoc. reflexivity. }
        split; [exact L1'|]. split; [exact L2'|]. discriminate.
      * cbn [bind]. destruct (Rec (R d) i1 tm1 [] did1 qs H (hbut_refl _ _)) with (conf1 := conf || false) as (s' & i & tm & L & did' & E' & Ii & Di & H' & A' & F' & U' & C' & L1' & L2' & P'); auto.
        { exists (pre ++ a ++ [c]). rewrite Ec. rewrite <- !app_assoc. reflexivity. }
        { intros x []. }
        rewrite app_nil_r in E'. rewrite (Stay eq_refl). exists s', i, tm, L, did'. rewrite E'. split; [f_equal; f_equal; destruct conf; reflexivity|]. split; [exact Ii|]. split; [exact Di|].
        cbn [fold_left]. unfold qstep at 2. rewrite EX, Y. unfold replies. rewrite W. cbn [negb andb]. auto 12.
    + assert (Y : yields (is_me d e from) q an X = false) by (unfold yields; rewrite W; reflexivity). rewrite (Stay Y).
      destruct (known_check_spec an d q X) as (L1 & Ek & Il & Nl). rewrite Ek.
      assert (Rp : replies q an X = negb (known q an X)) by (unfold replies; rewrite W; reflexivity).
      destruct (known q an X) eqn:K.
      * destruct (Rec (R d) (ifs d) (ifs_time d) L1 did qs H (hbut_refl _ _)) with (conf1 := conf) as (s' & i & tm & L & did' & E' & Ii & Di & H' & A' & F' & U' & C' & L1' & L2' & P'); auto.
        { exists (pre ++ a ++ [c]). rewrite Ec. rewrite <- !app_assoc. reflexivity. }
        exists s', i, tm, L, did'. rewrite E'. split; [reflexivity|]. split; [exact Ii|]. split; [exact Di|].
        cbn [fold_left]. unfold qstep at 2. rewrite EX, Y, Rp. cbn [negb]. auto 12.
      * cbn [into R now]. destruct (r_send_full (R d) qs (now d) c X H EX) as (s1 & E1 & H1 & F1). rewrite E1. cbn [bind].
        pose proof (send_time_fields (R d) (now d) X) as T. cbv zeta in T. destruct T as (T1 & T2 & T3 & T4 & T5 & T6).
        destruct F1 as [(G1 & G2 & G3 & G4 & G5 & G6 & G7) KF]. rewrite T1 in KF.
        change (with_R (into d (R d) (ifs d) (ifs_time d) (received d ++ L1)) s1) with (into d s1 (ifs d) (ifs_time d) (received d ++ L1)).
        destruct (Rec s1 (ifs d) (ifs_time d) L1 did _ H1 (hbut_frame _ _ _ KF)) with (conf1 := conf) as (s' & i & tm & L & did' & E' & Ii & Di & H' & A' & F' & U' & C' & L1' & L2' & P'); auto.
        { exists (pre ++ a ++ [c]). unfold chain_of. rewrite G2, T3. fold (chain_of (R d) (q_name q)). rewrite Ec. rewrite <- !app_assoc. reflexivity. }
        { congruence. }
        exists s', i, tm, L, did'. rewrite E'. split; [reflexivity|]. split; [exact Ii|]. split; [exact Di|].
        cbn [fold_left]. unfold qstep at 2. rewrite EX, Y, Rp. cbn [negb]. split; [exact H'|]. split; [eapply AF; eassumption|]. split; [exact F'|].
        split; [rewrite U', G3, T4; reflexivity|]. split; [rewrite C', G7, T5; reflexivity|]. split; [exact L1'|]. split; [exact L2'|]. intros K0. rewrite (P' K0). congruence.
Qed.
