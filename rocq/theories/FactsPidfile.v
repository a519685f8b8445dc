(* Lemmas about the PID file, for C104. *)
From Verif Require Import Base Lemmas SpecLib Conf FactsConf Pidfile.

Definition mine (dir base : list Z) (pid : Z) (st : pidstate) : Prop := forall q, p_path st = Some q -> q = pid_path dir base /\ p_pid st = pid /\ (0 < p_handlers st)%nat.

Lemma put_same : forall f p c, put f p c p = c.
Proof. intros. unfold put. rewrite bytes_eqb_refl. reflexivity. Qed.
Lemma put_other : forall f p c q, q <> p -> put f p c q = f q.
Proof. intros f p c q N. unfold put. destruct (bytes_eqb p q) eqn:E; [apply bytes_eqb_eq in E; congruence | reflexivity]. Qed.

(* Everything about one call *)
Lemma pidfile_call : forall dir base pid e st f st' f' r, pidfile dir base pid e st f = (st', f', r) -> mine dir base pid st -> 
  mine dir base pid st' /\ (r = 0 \/ r = -1) /\ (r = 0 -> p_path st' = Some (pid_path dir base) /\ (f' (pid_path dir base) = Some (pid_line pid) \/ (f' = f /\ p_path st = Some (pid_path dir base) /\ exists c, f (pid_path dir base) = Some c))) /\
  (r = -1 -> p_path st' = None /\ (f' (pid_path dir base) = None \/ f' = f)) /\ (forall q, q <> pid_path dir base -> f' q = f q).
Proof.
  intros dir base pid e st f st' f' r H M. unfold pidfile in H.
  assert (F : forall already, (already = true -> p_pid st = pid /\ (0 < p_handlers st)%nat) ->
    (let p := pid_path dir base in
    if negb (opens e) then (mkpid None (p_pid st) (p_handlers st), f, -1)
    else if negb (writes e) then (mkpid None (p_pid st) (p_handlers st), put f p None, -1)
    else
      let f := put f p (Some (pid_line pid)) in
      if already : bool then (mkpid (Some p) (p_pid st) (p_handlers st), f, 0)
      else if registers e then (mkpid (Some p) pid (S (p_handlers st)), f, 0)
      else (mkpid None 0 (p_handlers st), put f p None, -1)) = (st', f', r) ->
   mine dir base pid st' /\ (r = 0 \/ r = -1) /\ (r = 0 -> p_path st' = Some (pid_path dir base) /\ f' (pid_path dir base) = Some (pid_line pid)) /\
   (r = -1 -> p_path st' = None /\ (f' (pid_path dir base) = None \/ f' = f)) /\ (forall q, q <> pid_path dir base -> f' q = f q)).
  { intros already Ha. cbv zeta. destruct (opens e); cbn [negb].
    2: { intros E; injection E as <- <- <-. split; [intros q; discriminate |]. split; [auto |]. split; [lia |]. split; [cbn; auto | auto]. }
    destruct (writes e); cbn [negb].
    2: { intros E; injection E as <- <- <-. split; [intros q; discriminate |]. split; [auto |]. split; [lia |]. split; [cbn; rewrite put_same; auto | intros; now apply put_other]. }
    destruct already.
    { intros E; injection E as <- <- <-. specialize (Ha eq_refl). split; [intros q K; injection K as <-; cbn; tauto |]. split; [auto |]. split; [cbn; rewrite put_same; auto |]. split; [lia | intros; now apply put_other]. }
    destruct (registers e).
    { intros E; injection E as <- <- <-. split; [intros q K; injection K as <-; cbn; split; [reflexivity | split; [reflexivity | lia]] |]. split; [auto |]. split; [cbn; rewrite put_same; auto |]. split; [lia | intros; now apply put_other]. }
    intros E; injection E as <- <- <-. split; [intros q; discriminate |]. split; [auto |]. split; [lia |]. split; [cbn; rewrite put_same; auto | intros; rewrite !put_other by assumption; reflexivity]. }
  destruct (p_path st) as [q |] eqn:Ep.
  - destruct (M q Ep) as (-> & Hp & Hh). destruct (_ && _) eqn:K.
    + injection H as <- <- <-. apply andb_prop in K as [K _]. destruct (f (pid_path dir base)) as [c |] eqn:Ef; [| discriminate].
      split; [exact M |]. split; [auto |]. split; [intros _; split; [exact Ep |]; right; eauto |]. split; [lia | auto].
    + destruct (F true (fun _ => conj Hp Hh) H) as (A & B & C & D & E). split; [exact A |]. split; [exact B |]. split; [intros R; destruct (C R); auto |]. auto.
  - destruct (F false ltac:(discriminate) H) as (A & B & C & D & E). split; [exact A |]. split; [exact B |]. split; [intros R; destruct (C R); auto |]. auto.
Qed.

Lemma lives_mine : forall may dir base pid st f r, lives may dir base pid st f r -> mine dir base pid st.
Proof.
  intros may dir base pid st f r H. induction H as [f | st f r e st' f' r' H IH E | st f r f' H IH K]; [intros q; discriminate | | exact IH].
  apply (pidfile_call _ _ _ _ _ _ _ _ _ E IH).
Qed.
(* Others at most remove the file *)
Definition removes (p : list Z) (f f' : files) : Prop := f' p = f p \/ f' p = None.
Lemma lives_own : forall dir base pid st f r, lives (removes (pid_path dir base)) dir base pid st f r -> p_path st <> None -> f (pid_path dir base) = None \/ f (pid_path dir base) = Some (pid_line pid).
Proof.
  intros dir base pid st f r H. induction H as [f | st f r e st' f' r' H IH E | st f r f' H IH K]; [cbn; congruence | |].
  - intros N. destruct (pidfile_call _ _ _ _ _ _ _ _ _ E (lives_mine _ _ _ _ _ _ _ H)) as (_ & [R | R] & C & D & _).
    + destruct (C R) as [_ [? | (-> & P & _)]]; [auto |]. apply IH. congruence.
    + destruct (D R) as [P _]. congruence.
  - intros N. destruct K as [K | K]; rewrite K; auto.
Qed.

Lemma pidfile_holds : forall dir base pid st f r e st' f', lives (removes (pid_path dir base)) dir base pid st f r -> pidfile dir base pid e st f = (st', f', 0) -> f' (pid_path dir base) = Some (pid_line pid).
Proof.
  intros dir base pid st f r e st' f' H E. destruct (pidfile_call _ _ _ _ _ _ _ _ _ E (lives_mine _ _ _ _ _ _ _ H)) as (_ & _ & C & _).
  destruct (C eq_refl) as [_ [? | (-> & P & (c & Ec))]]; [assumption |]. destruct (lives_own _ _ _ _ _ _ H) as [K | K]; congruence.
Qed.
Lemma pidfile_keeps : forall may dir base pid st f r e st' f' r' q, lives may dir base pid st f r -> pidfile dir base pid e st f = (st', f', r') -> q <> pid_path dir base -> f' q = f q.
Proof. intros may dir base pid st f r e st' f' r' q H E N. destruct (pidfile_call _ _ _ _ _ _ _ _ _ E (lives_mine _ _ _ _ _ _ _ H)) as (_ & _ & _ & _ & K). auto. Qed.

Lemma handlers_none : forall n pid u st f, p_path st = None -> handlers n pid u st f = f.
Proof. induction n as [| n IH]; intros pid u st f H; [reflexivity |]. cbn [handlers]. unfold cleanup. rewrite H. apply IH. exact H. Qed.
Lemma handlers_child : forall n pid u st f, p_pid st <> pid -> handlers n pid u st f = f.
Proof. induction n as [| n IH]; intros pid u st f H; [reflexivity |]. cbn [handlers]. unfold cleanup. destruct (p_path st); [destruct (Z.eqb_spec (p_pid st) pid); [congruence |] |]; now apply IH. Qed.
Lemma handlers_some : forall n pid u st f p, p_path st = Some p -> p_pid st = pid -> (0 < n)%nat -> handlers n pid u st f = if u then put f p None else f.
Proof.
  intros n pid u st f p Hp Hi Hn. destruct n as [| n]; [lia |]. cbn [handlers]. unfold cleanup. rewrite Hp, Hi, Z.eqb_refl. apply handlers_none. reflexivity.
Qed.

Lemma pidfile_removed : forall may dir base pid st f r, lives may dir base pid st f r ->
  forall e st' f', pidfile dir base pid e st f = (st', f', 0) -> forall f'', exits pid true st' f'' (pid_path dir base) = None /\ forall u q, q <> pid_path dir base -> exits pid u st' f'' q = f'' q.
Proof.
  intros may dir base pid st f r H e st' f' E f''. destruct (pidfile_call _ _ _ _ _ _ _ _ _ E (lives_mine _ _ _ _ _ _ _ H)) as (M & _ & C & _).
  destruct (C eq_refl) as [P _]. destruct (M _ P) as (_ & Hp & Hh). unfold exits. split.
  - rewrite (handlers_some _ pid true st' f'' _ P Hp Hh). apply put_same.
  - intros u q N. rewrite (handlers_some _ pid u st' f'' _ P Hp Hh). destruct u; [now apply put_other | reflexivity].
Qed.
Lemma pidfile_failed : forall may dir base pid st f r, lives may dir base pid st f r ->
  forall e st' f' r', pidfile dir base pid e st f = (st', f', r') -> r' <> 0 -> r' = -1 /\ (f' (pid_path dir base) = None \/ f' = f) /\ forall f'' u, exits pid u st' f'' = f''.
Proof.
  intros may dir base pid st f r H e st' f' r' E N. destruct (pidfile_call _ _ _ _ _ _ _ _ _ E (lives_mine _ _ _ _ _ _ _ H)) as (_ & [R | R] & _ & D & _); [congruence |].
  destruct (D R) as [P K]. split; [exact R |]. split; [exact K |]. intros. now apply handlers_none.
Qed.
Lemma pidfile_works : forall may dir base pid st f r, lives may dir base pid st f r -> forall e, opens e = true -> writes e = true -> registers e = true -> exists st' f', pidfile dir base pid e st f = (st', f', 0).
Proof. intros may dir base pid st f r H e A B C. unfold pidfile. rewrite A, B, C. cbn [negb]. destruct (p_path st) as [q |]; [destruct (_ && _) |]; eauto. Qed.
Lemma child_exit : forall may dir base pid st f r child u f', lives may dir base pid st f r -> child <> pid -> exits child u st f' = f'.
Proof.
  intros may dir base pid st f r child u f' H N. unfold exits. pose proof (lives_mine _ _ _ _ _ _ _ H) as M. destruct (p_path st) as [q |] eqn:E; [| now apply handlers_none].
  apply handlers_child. destruct (M q E) as (_ & K & _). congruence.
Qed.
Lemma line_reads : forall pid, 0 <= pid < 2 ^ 31 -> exists ds, pid_line pid = ds ++ [10] /\ is_dec ds /\ dec_value ds = pid.
Proof.
  intros pid H. unfold pid_line, dec. destruct (dec_loop_spec 20 pid [] ltac:(change (10 ^ Z.of_nat 20) with 100000000000000000000; lia) ltac:(lia)) as (ds & E & D & V & _).
  rewrite app_nil_r in E. exists ds. rewrite E. auto.
Qed.

Definition all_fine : says := mksays true true true true.
Definition no_files : files := fun _ => None.
Lemma first_call : forall dir base pid f, pidfile dir base pid all_fine pid_new f = (mkpid (Some (pid_path dir base)) pid 1, put f (pid_path dir base) (Some (pid_line pid)), 0).
Proof. reflexivity. Qed.
Lemma two_processes : forall dir base a b, a <> b ->
  let '(sa, f1, ra) := pidfile dir base a all_fine pid_new no_files in
  let '(sb, f2, rb) := pidfile dir base b all_fine pid_new f1 in
  ra = 0 /\ rb = 0 /\ f2 (pid_path dir base) = Some (pid_line b) /\ exits a true sa f2 (pid_path dir base) = None.
Proof.
  intros dir base a b N. rewrite !first_call. split; [reflexivity |]. split; [reflexivity |]. split; [apply put_same |].
  unfold exits. rewrite (handlers_some _ a true (mkpid (Some (pid_path dir base)) a 1) _ (pid_path dir base) eq_refl eq_refl) by (cbn; lia). apply put_same.
Qed.
Lemma other_name : exists dir base base' pid, let '(s1, f1, r1) := pidfile dir base pid all_fine pid_new no_files in let '(s2, f2, r2) := pidfile dir base' pid all_fine s1 f1 in
  pid_path dir base' <> pid_path dir base /\ r2 = 0 /\ f2 (pid_path dir base') = None.
Proof. exists [47; 114], [97], [98], 42. vm_compute. split; [discriminate |]. split; reflexivity. Qed.
Lemma child_takes : forall dir base pid child, child <> pid ->
  let '(s1, f1, _) := pidfile dir base pid all_fine pid_new no_files in
  let '(s2, f2, r2) := pidfile dir base child all_fine s1 f1 in
  r2 = 0 /\ exits child true s2 f2 (pid_path dir base) = Some (pid_line child) /\
  pidfile dir base pid all_fine s1 (exits child true s2 f2) = (s1, exits child true s2 f2, 0).
Proof.
  intros dir base pid child N. rewrite first_call. unfold pidfile at 1. cbn [p_path p_pid p_handlers]. destruct (Z.eqb_spec child pid) as [E | E]; [congruence |]. rewrite andb_false_r. cbn [negb opens writes registers all_fine].
  split; [reflexivity |]. unfold exits. cbn [p_handlers]. rewrite handlers_child by (cbn; congruence). split; [apply put_same |].
  unfold pidfile. cbn [p_path p_pid]. rewrite put_same, Z.eqb_refl. reflexivity.
Qed.

Lemma path_named dir base : (hd 0 base = 47 -> pid_path dir base = base) /\ (hd 0 base <> 47 -> pid_path dir base = dir ++ [47] ++ base ++ [46; 112; 105; 100]).
Proof.
  unfold pid_path. destruct base as [|c base]; cbn [hd]; [split; [discriminate|reflexivity]|]. destruct (Z.eq_dec c 47) as [->|N]; [split; [reflexivity|congruence]|]. split; [congruence|intros _].
  destruct c as [|p|p]; try reflexivity. do 6 (destruct p; try reflexivity). congruence.
Qed.
