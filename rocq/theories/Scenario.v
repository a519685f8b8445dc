(* Histories for the examples: a list of calls is played as long as each is
   legal and succeeds. *)
From Verif Require Import Base Lemmas Hash Wire Rec Qry Out In Api SpecDaemon.

Definition at_ (t : tv) : env := mkenv t 0 None (fun _ => false).

Definition wf_resourceb (r : resource) : bool :=
  (0 <=? rr_ttl r) && (rr_rdlength r =? zlen (opt_bytes (rr_rdata r))) &&
  (negb (rr_type r =? QTYPE_SRV) || match rr_known r with KSrv _ _ _ _ => true | _ => false end) &&
  (negb (is_name_type (rr_type r)) || match rr_known r with KName _ => true | _ => false end) &&
  (negb (rr_type r =? QTYPE_A) || match rr_known r with KA _ => true | _ => false end) &&
  (negb (rr_type r =? QTYPE_AAAA) || match rr_known r with KAAAA _ => true | _ => false end).

Lemma wf_resourceb_ok : forall r, wf_resourceb r = true -> wf_resource r.
Proof.
  intros r H. unfold wf_resourceb in H. rewrite !andb_true_iff, !orb_true_iff, !negb_true_iff in H. destruct H as (((((H1 & H2) & H3) & H4) & H5) & H6).
  assert (K : forall n m : Z, n =? m = false -> n <> m) by (intros; lia).
  split; [lia|]. split; [lia|]. split; [|split; [|split]].
  - intros E. destruct H3 as [H3|H3]; [lia|]. destruct (rr_known r); try discriminate. eauto.
  - intros E. destruct H4 as [H4|H4]; [congruence|]. destruct (rr_known r); try discriminate. eauto.
  - intros E. destruct H5 as [H5|H5]; [lia|]. destruct (rr_known r); try discriminate. eauto.
  - intros E. destruct H6 as [H6|H6]; [lia|]. destruct (rr_known r); try discriminate. eauto.
Qed.

Definition isnone {A : Type} (o : option A) : bool := match o with None => true | Some _ => false end.
Lemma isnone_ok : forall (A : Type) (o : option A), isnone o = true -> o = None.
Proof. intros A [x|]; [discriminate|reflexivity]. Qed.
Definition settledb (s : recs) : bool := isnone (probing s) && isnone (a_publish s) && isnone (a_pause s).
Lemma settledb_ok : forall s, settledb s = true -> settled s.
Proof. intros s H. unfold settledb in H. rewrite !andb_true_iff in H. destruct H as ((H1 & H2) & H3). split; [|split]; apply isnone_ok; assumption. Qed.

Lemma empty_unlinked : forall s r, settled s -> a_now s = None -> unlinked s r.
Proof. intros s r (A & B & C) D q J. assert (E : head s q = None) by (destruct q; assumption). rewrite E in J. inversion J. Qed.

Definition legalb (d : daemon) (t : tv) (o : op) : bool :=
  (0 <=? fst t) &&
  match o with
  | OUnique _ _ _ cb => negb (isnone cb)
  | OSetRaw r _ | OSetHost r _ | OSetIp r _ | OSetIp6 r _ | OSetSrv r _ _ _ _ | ODone r => negb (isnone (hp (R d) r))
  | OSetAddress i | OSetAddress6 i => negb (is_zero i) || (settledb (R d) && isnone (a_now (R d)))
  | OShutdown => settledb (R d)
  | OIn m _ => forallb wf_resourceb (m_an m)
  | _ => true
  end.

Lemma legalb_ok : forall d t o, legalb d t o = true -> legal d (at_ t) o.
Proof.
  intros d t o H. unfold legalb in H. apply andb_true_iff in H as [H1 H2]. split; [cbn [at_ e_now]; lia|].
  assert (NN : forall (A : Type) (o : option A), negb (isnone o) = true -> o <> None) by (intros A [x|]; discriminate).
  destruct o; try exact Logic.I; try (apply NN; exact H2); try (apply settledb_ok; exact H2).
  - apply orb_true_iff in H2 as [H2|H2]; [left; apply negb_true_iff; exact H2|right]. apply andb_true_iff in H2 as [H2 H3]. intros r X _ _. exact (empty_unlinked _ r (settledb_ok _ H2) (isnone_ok _ _ H3)).
  - apply orb_true_iff in H2 as [H2|H2]; [left; apply negb_true_iff; exact H2|right]. apply andb_true_iff in H2 as [H2 H3]. intros r X _ _. exact (empty_unlinked _ r (settledb_ok _ H2) (isnone_ok _ _ H3)).
  - unfold wf_message. apply Forall_forall. intros r I. apply wf_resourceb_ok. rewrite forallb_forall in H2. apply H2. exact I.
  - left. reflexivity.
Qed.

(* The state and what the calls returned *)
Fixpoint played (d : daemon) (l : list (tv * op)) : daemon * list out :=
  match l with
  | [] => (d, [])
  | (t, o) :: l =>
      if legalb d t o then
        match step d (at_ t) o with
        | Ok (d', x) => let '(d2, xs) := played d' l in (d2, x :: xs)
        | _ => (d, [])
        end
      else (d, [])
  end.

Lemma played_reach : forall l d, reach d -> reach (fst (played d l)).
Proof.
  induction l as [|[t o] l IH]; intros d H; cbn [played]; [exact H|]. destruct (legalb d t o) eqn:L; [|exact H].
  destruct (step d (at_ t) o) as [[d' x]| | |] eqn:E; try exact H.
  assert (H' : reach d') by (eapply reach_step; [exact H|apply legalb_ok; exact L|exact E]). specialize (IH d' H').
  destruct (played d' l) as [d2 xs]. exact IH.
Qed.

(* mdnsd_new, then the calls *)
Definition story (frm : Z) (l : list (tv * op)) : daemon := fst (played (mdnsd_new (1, 0) 1 frm) l).
Definition replies (frm : Z) (l : list (tv * op)) : list out := snd (played (mdnsd_new (1, 0) 1 frm) l).
Lemma story_reach : forall frm l, reach (story frm l).
Proof. intros frm l. apply played_reach. apply reach_new. cbn [fst]. lia. Qed.

(* The calls as events *)
Fixpoint recorded (d : daemon) (l : list (tv * op)) : list event :=
  match l with
  | [] => []
  | (t, o) :: l =>
      if legalb d t o then
        match step d (at_ t) o with
        | Ok (d', x) => mkevent d (at_ t) o x d' :: recorded d' l
        | _ => []
        end
      else []
  end.
Lemma history_front : forall d e o x d' l d2, legal d e o -> step d e o = Ok (d', x) -> history d' l d2 -> history d (mkevent d e o x d' :: l) d2.
Proof.
  intros d e o x d' l d2 L E Hh. induction Hh as [|l d2 e2 o2 x2 d3 Hh IH L2 E2].
  - apply (history_call d [] d e o x d'); [apply history_start|exact L|exact E].
  - change (mkevent d e o x d' :: l ++ [mkevent d2 e2 o2 x2 d3]) with ((mkevent d e o x d' :: l) ++ [mkevent d2 e2 o2 x2 d3]). apply history_call; assumption.
Qed.
Lemma recorded_history : forall l d, history d (recorded d l) (fst (played d l)).
Proof.
  induction l as [|[t o] l IH]; intros d; cbn [played recorded]; [apply history_start|]. destruct (legalb d t o) eqn:L; [|apply history_start].
  destruct (step d (at_ t) o) as [[d' x]| | |] eqn:E; try apply history_start. specialize (IH d'). destruct (played d' l) as [d2 xs]. eapply history_front; [apply legalb_ok; exact L|exact E|exact IH].
Qed.

(* Names and messages *)
Definition nm (c : Z) : list Z := [c; 46; 108; 111; 99; 97; 108; 46].   (* "c.local." *)
Definition peer : addr := mkaddr AF_INET [10; 0; 0; 9] 5353.
Definition stranger : addr := mkaddr AF_INET [10; 0; 0; 9] 40000.
Definition hdr (qr : Z) : header := mkheader qr 0 0 0 0 0 0 0.
Definition asking (id : Z) (qd : list question) (an : list resource) : message := mkmessage id (hdr 0) qd an [] [].
Definition telling (an : list resource) : message := mkmessage 0 (hdr 1) [] an [] [].
(* Resource records of type A, PTR and TXT *)
Definition rr_a (name : list Z) (cls ttl : Z) (i : list Z) : resource := mkresource name QTYPE_A cls ttl 4 (Some i) (KA i).
Definition rr_ptr (name : list Z) (cls ttl : Z) (n : list Z) : resource := mkresource name QTYPE_PTR cls ttl 2 (Some [192; 12]) (KName n).
Definition rr_txt (name : list Z) (cls ttl : Z) (d : list Z) : resource := mkresource name QTYPE_TXT cls ttl (zlen d) (Some d) KNone.

(* Queues *)
Fixpoint linkedb (next : nat -> option (option nat)) (p : option nat) (l : list nat) : bool :=
  match l, p with
  | [], None => true
  | x :: l, Some y => Nat.eqb x y && match next x with Some p => linkedb next p l | None => false end
  | _, _ => false
  end.
Lemma linkedb_ok : forall next l p, linkedb next p l = true -> linked next p l.
Proof.
  intros next. induction l as [|x l IH]; intros [y|] K; cbn [linkedb] in K; try discriminate; [apply linked_end|]. apply andb_true_iff in K as [K1 K2]. apply Nat.eqb_eq in K1. subst y.
  destruct (next x) as [p|] eqn:E; [|discriminate]. eapply linked_node; [exact E|apply IH; exact K2].
Qed.
Lemma waits_by : forall l d q r, linkedb (next_of d) (head (R d) q) l = true -> In r l -> waits d q r.
Proof. intros l d q r K I. exists l. split; [apply linkedb_ok; exact K|exact I]. Qed.

Definition annals (frm : Z) (l : list (tv * op)) : list event := recorded (mdnsd_new (1, 0) 1 frm) l.
Lemma annals_history : forall frm l, history (mdnsd_new (1, 0) 1 frm) (annals frm l) (story frm l).
Proof. intros frm l. unfold annals, story. apply recorded_history. Qed.
Definition makes_unique (r : nat) (ev : event) : bool :=
  match ev_call ev, ev_result ev with OUnique _ _ _ _, RRec r' => Nat.eqb r r' | _, _ => false end.
Lemma made_unique_by : forall l r, existsb (makes_unique r) l = true <-> made_unique l r.
Proof.
  intros l r. rewrite existsb_exists. unfold made_unique, makes_unique. split.
  - intros (ev & I & K). exists ev. destruct (ev_call ev); try discriminate. destruct (ev_result ev); try discriminate. apply Nat.eqb_eq in K. subst. eauto 10.
  - intros (ev & h & ty & ttl & cb & I & A & B). exists ev. split; [exact I|]. rewrite A, B. apply Nat.eqb_refl.
Qed.
Lemma idle_by : forall d, forallb (fun q => isnone (head (R d) q)) [Probing; Now; Pause; Publish] = true -> forall r, idle d r.
Proof.
  intros d K r q (l & C & I). assert (N : head (R d) q = None).
  { rewrite forallb_forall in K. apply isnone_ok. apply K. destruct q; cbn [In]; auto. }
  unfold queue_is in C. rewrite N in C. inversion C. subst l. destruct I.
Qed.
Lemma forward_by : forall l, forallb (fun ev => fst (now (ev_before ev)) <=? fst (e_now (ev_env ev))) l = true -> forward l.
Proof. intros l K ev I. rewrite forallb_forall in K. specialize (K ev I). lia. Qed.
Lemma made_by : forall l r, existsb (fun ev => match ev_result ev with RRec r' => Nat.eqb r r' | _ => false end) l = true -> made l r.
Proof. intros l r K. apply existsb_exists in K as (ev & I & K). exists ev. split; [exact I|]. destruct (ev_result ev); try discriminate. apply Nat.eqb_eq in K. congruence. Qed.
Definition setsb (o : op) (r : nat) : bool :=
  match o with
  | OSetRaw r' _ | OSetHost r' _ | OSetIp r' _ | OSetIp6 r' _ | OSetSrv r' _ _ _ _ => Nat.eqb r r'
  | OSetAddrs _ _ | OSetAddrs6 _ _ | OSetIfaddrs _ | OSetAddress _ | OSetAddress6 _ => true
  | _ => false
  end.
Lemma never_set_by : forall l r, forallb (fun ev => negb (setsb (ev_call ev) r)) l = true -> never_set l r.
Proof.
  intros l r K ev I S. rewrite forallb_forall in K. specialize (K ev I). unfold sets, setsb in *. destruct (ev_call ev); try discriminate; try contradiction.
  all: subst; rewrite Nat.eqb_refl in K; discriminate.
Qed.
