From Coq Require Import String.
From Coq Require Import Sorting.Sorted Sorting.Permutation.
From Verif Require Import Base Lemmas Lib SpecLib Hash Wire Rec Qry Out In Api DaemonInv SpecDaemon SpecAddr Conf SpecConf FactsConf Load SpecLoad FactsLoad FactsLoad2 FactsLoad3 ConfInit SpecConfInit.
Open Scope list_scope.

(* ---- order ---- *)
Lemma before_iff a b : before a b = true <-> comes_before a b.
Proof.
  split.
  - revert b. induction a as [|x a IH]; intros b H; [constructor|]. destruct b as [|y b]; [discriminate|]. cbn [before] in H. apply orb_prop in H as [H|H].
    + apply cb_less. lia.
    + apply andb_prop in H as [E H]. assert (x = y) as -> by lia. apply cb_same. auto.
  - induction 1 as [b|x y a b L|x a b _ IH]; [destruct b; reflexivity| |]; cbn [before].
    + replace (x <? y) with true by lia. reflexivity.
    + rewrite Z.eqb_refl, IH, andb_true_r. apply orb_true_r.
Qed.
Lemma before_total a b : before a b = false -> before b a = true.
Proof.
  revert b. induction a as [|x a IH]; intros b H; [discriminate|]. destruct b as [|y b]; [reflexivity|]. cbn [before] in *. apply orb_false_elim in H as [H1 H2].
  destruct (Z.eq_dec x y) as [->|N]; [rewrite Z.eqb_refl in *; cbn [andb] in H2; rewrite (IH _ H2), orb_true_r; reflexivity|]. replace (y <? x) with true by lia. reflexivity.
Qed.
Lemma before_trans a b c : comes_before a b -> comes_before b c -> comes_before a c.
Proof.
  intros H. revert c. induction H as [b|x y a b L|x a b _ IH]; intros c K; [constructor| |].
  - inversion K; subst; apply cb_less; lia.
  - inversion K; subst; [apply cb_less; lia|apply cb_same; auto].
Qed.
Lemma insert_perm x l : Permutation (insert x l) (x :: l).
Proof. induction l as [|y l IH]; [reflexivity|]. cbn [insert]. destruct (before x y); [reflexivity|]. rewrite IH. apply perm_swap. Qed.
Lemma sort_perm l : Permutation (sort l) l.
Proof. induction l as [|x l IH]; [reflexivity|]. cbn [sort fold_right]. fold (sort l). rewrite insert_perm, IH. reflexivity. Qed.
Lemma insert_sorted x l : StronglySorted comes_before l -> StronglySorted comes_before (insert x l).
Proof.
  induction 1 as [|y l S IH F]; [repeat constructor|]. cbn [insert]. destruct (before x y) eqn:B.
  - apply before_iff in B. constructor; [constructor; assumption|]. constructor; [exact B|]. eapply Forall_impl; [|exact F]. intros z. apply before_trans. exact B.
  - constructor; [exact IH|]. apply before_total in B. apply before_iff in B. rewrite Forall_forall in *. intros z I. apply (Permutation_in _ (insert_perm x l)) in I as [<-|I]; auto.
Qed.
Lemma sort_sorted l : StronglySorted comes_before (sort l).
Proof. induction l as [|x l IH]; [constructor|]. cbn [sort fold_right]. apply insert_sorted. exact IH. Qed.

(* ---- matching ---- *)
Definition literal (p : list Z) : Prop := forall c, In c p -> c <> 42 /\ c <> 63 /\ c <> 92.
Lemma fnm_literal p n : literal p -> (fnm p n = true <-> n = p).
Proof.
  revert n. induction p as [|c p IH]; intros n L; [cbn [fnm]; destruct n; split; congruence|]. cbn [fnm]. destruct (L c (or_introl eq_refl)) as (A & B & C).
  replace (c =? 42) with false by lia. replace (c =? 63) with false by lia. replace (c =? 92) with false by lia. destruct n as [|x n]; [split; discriminate|].
  rewrite andb_true_iff, IH by (intros y I; apply L; right; exact I). split; [intros [E ->]; f_equal; lia|intros E; injection E as -> ->; split; [lia|reflexivity]].
Qed.
Lemma star_iff p n : literal p -> (fnm (42 :: p) n = true <-> exists b, n = b ++ p).
Proof.
  intros L. induction n as [|x n IH]; cbn [fnm Z.eqb Pos.eqb].
  - rewrite orb_false_r, fnm_literal by exact L. split; [intros <-; exists []; reflexivity|]. intros (b & E). destruct b, p; try discriminate. reflexivity.
  - rewrite orb_true_iff, fnm_literal by exact L. cbn [fnm Z.eqb Pos.eqb] in IH. rewrite IH. split.
    + intros [E|(b & E)]; [exists []; exact E|exists (x :: b); cbn [app]; congruence].
    + intros ([|y b] & E); [left; exact E|right; exists b; cbn [app] in E; congruence].
Qed.
Definition S_SERVICE : list Z := [46; 115; 101; 114; 118; 105; 99; 101].
Lemma service_iff n : fnmatch S_PATTERN n = true <-> service_name n.
Proof.
  unfold fnmatch. change S_PATTERN with (42 :: S_SERVICE). assert (literal S_SERVICE) as L by (intros c; unfold S_SERVICE; cbn [In]; intuition lia).
  rewrite andb_true_iff, star_iff by exact L. change (shows_hidden (42 :: S_SERVICE)) with false. rewrite orb_false_r. unfold service_name. change (ascii_text ".service") with S_SERVICE.
  split.
  - intros (H & b & ->). exists b. split; [reflexivity|]. unfold hidden in H. destruct b as [|c b]; [discriminate|]. cbn [app hd] in *. lia.
  - intros (b & -> & H). split; [|exists b; reflexivity]. unfold hidden. destruct b as [|c b]; cbn [app hd] in *; [congruence|]. lia.
Qed.

(* ---- components ---- *)
Lemma components_nonempty p : components p <> [].
Proof. destruct p as [|c p]; [discriminate|]. cbn [components]. destruct (c =? 47); [discriminate|]. destruct (components p); discriminate. Qed.
Lemma components_flat p : ~ In 47 p -> components p = [p].
Proof.
  induction p as [|c p IH]; intros N; [reflexivity|]. cbn [components]. replace (c =? 47) with false by (cbn [In] in N; lia). rewrite IH by (intros I; apply N; right; exact I). reflexivity.
Qed.
Lemma components_split a b : exists l, components (a ++ 47 :: b) = l ++ components b /\ concat l = a ++ [47].
Proof.
  induction a as [|c a (l & E & C)].
  - exists [[47]]. split; reflexivity.
  - cbn [app components]. destruct (c =? 47) eqn:K.
    + exists ([c] :: l). rewrite E. cbn [app concat]. rewrite C. split; reflexivity.
    + rewrite E. destruct l as [|x l]; [destruct a; discriminate|]. cbn [app]. exists ((c :: x) :: l). split; [reflexivity|]. cbn [concat app] in *. rewrite C. reflexivity.
Qed.
Lemma unquote_plain p : ~ In 92 p -> unquote p = p.
Proof. induction p as [|c p IH]; intros N; [reflexivity|]. cbn [unquote]. replace (c =? 92) with false by (cbn [In] in N; lia). rewrite IH by (intros I; apply N; right; exact I). reflexivity. Qed.
Lemma dirs_plain fs l at_ : (forall c, In c (concat l) -> c <> 42 /\ c <> 63 /\ c <> 92) -> dirs fs at_ l = Some [at_ ++ concat l].
Proof.
  revert at_. induction l as [|c l IH]; intros at_ H; [cbn [dirs concat]; rewrite app_nil_r; reflexivity|]. cbn [concat] in H. cbn [dirs].
  assert (wild c = false) as ->.
  { unfold wild. destruct (existsb _ c) eqn:E; [|reflexivity]. apply existsb_exists in E as (x & I & K). destruct (H x) as (A & B & _); [apply in_or_app; left; exact I|]. lia. }
  rewrite unquote_plain by (intros I; destruct (H 92) as (_ & _ & K); [apply in_or_app; left; exact I|congruence]).
  rewrite IH by (intros x I; apply H; apply in_or_app; right; exact I). cbn [concat]. rewrite app_assoc. reflexivity.
Qed.

Definition dir_of (path : list Z) : list Z := if zget path (zlen path - 1) =? 47 then path else path ++ [47].
Lemma last_zget p : p <> [] -> zget p (zlen p - 1) = last p 0.
Proof.
  intros N. destruct (exists_last N) as (q & x & ->). rewrite last_last. unfold zget, zlen. rewrite app_length. cbn [length].
  replace (Z.to_nat (Z.of_nat (length q + 1) - 1)) with (length q) by lia. rewrite app_nth2 by lia. rewrite Nat.sub_diag. replace (_ && _) with true by lia. reflexivity.
Qed.
Lemma inside_dir p n : p <> [] -> inside p n = dir_of p ++ n.
Proof.
  intros N. unfold inside, dir_of. rewrite (last_zget p N). destruct (Z.eq_dec (last p 0) 47) as [E|E]; [rewrite E; reflexivity|].
  replace (last p 0 =? 47) with false by lia. rewrite <- app_assoc. reflexivity.
Qed.
Lemma pattern_ok p : p <> [] -> pattern p = Ok (dir_of p ++ S_PATTERN).
Proof.
  intros N. destruct p as [|c p]; [congruence|]. unfold pattern. fold (dir_of (c :: p)). cbv zeta.
  assert (zlen (dir_of (c :: p)) <= zlen (c :: p) + 1) as L. { unfold dir_of, zlen. destruct (_ =? 47); [lia|]. rewrite app_length. cbn [length]. lia. }
  unfold zlen in *. rewrite app_length. change (length S_PATTERN) with 9%nat. replace (_ <=? _) with true by lia. reflexivity.
Qed.
Lemma dir_split p : p <> [] -> exists q, dir_of p = q ++ [47] /\ (forall c, In c (dir_of p) -> In c p \/ c = 47).
Proof.
  intros N. unfold dir_of. rewrite last_zget by exact N. destruct (last p 0 =? 47) eqn:E.
  - destruct (exists_last N) as (q & x & ->). rewrite last_last in E. assert (x = 47) as -> by lia. exists q. split; [reflexivity|]. intros c I. left. exact I.
  - exists p. split; [reflexivity|]. intros c I. apply in_app_or in I as [I|[<-|[]]]; auto.
Qed.
Lemma glob_plain fs expand p names : plain_path p -> fs (dir_of p) = Dir (Some names) ->
  glob fs expand (dir_of p ++ S_PATTERN) = match filter (fnmatch S_PATTERN) names with [] => None | _ => Some (sort (map (fun n => dir_of p ++ n) (filter (fnmatch S_PATTERN) names))) end.
Proof.
  intros (N & T & P) D. destruct (dir_split p N) as (q & Edir & Inc). unfold glob.
  assert (existsb (Z.eqb 91) (dir_of p ++ S_PATTERN) || (match dir_of p ++ S_PATTERN with c :: _ => c =? 126 | [] => false end) = false) as ->.
  { apply orb_false_intro.
    - destruct (existsb _ _) eqn:E; [|reflexivity]. apply existsb_exists in E as (x & I & K). apply in_app_or in I as [I|I].
      + destruct (Inc x I) as [I'| ->]; [destruct (P x I'); lia|discriminate].
      + unfold S_PATTERN in I. cbn [In] in I. lia.
    - destruct p as [|c p]; [congruence|]. unfold dir_of. destruct (_ =? 47); cbn [app hd] in *; lia. }
  rewrite Edir, <- app_assoc. cbn [app]. destruct (components_split q S_PATTERN) as (l & El & Cl). rewrite El. change (components S_PATTERN) with [S_PATTERN].
  cbv zeta. rewrite removelast_last, last_last. rewrite dirs_plain.
  - rewrite Cl. cbn [app matches]. rewrite <- Edir, D. destruct (filter _ names) as [|x f] eqn:F; [reflexivity|]. rewrite app_nil_r. cbn [map]. reflexivity.
  - rewrite Cl, <- Edir. intros c I. destruct (Inc c I) as [I'| ->]; [destruct (P c I') as (A & B & C & E); auto|lia].
Qed.

(* ---- loading ---- *)
Fixpoint found_in (fs : disk) (line : list Z) (l : list (list Z)) : list conf_srec :=
  match l with
  | [] => []
  | p :: l => match contents (fs p) with Some c => match parse line c srec_zero with Ok s => s :: found_in fs line l | _ => found_in fs line l end | None => found_in fs line l end
  end.
Definition fine (fs : disk) (line p : list Z) : Prop := forall c, contents (fs p) = Some c -> exists s, parse line c srec_zero = Ok s.
Definition closed (fs : disk) (p : list Z) : bool := match contents (fs p) with None => true | _ => false end.

Lemma load_each_ok fs line e ifname hostname : 0 <= fst (e_now e) -> forall l d d6 rc, reach d -> (forall x, d6 = Some x -> reach x) -> (rc = 0 \/ rc = 1) -> (forall p, In p l -> fine fs line p) ->
  exists d' d6', load_each fs line d d6 e ifname hostname rc l = Ok (d', d6', if existsb (closed fs) l then 1 else rc) /\
    load_files d e ifname hostname (found_in fs line l) = Ok d' /\ reach d' /\
    match d6, d6' with Some x, Some x' => load_files x e ifname hostname (found_in fs line l) = Ok x' /\ reach x' | None, None => True | _, _ => False end.
Proof.
  intros T. induction l as [|p l IH]; intros d d6 rc K K6 Rc F.
  - exists d, d6. cbn [load_each existsb found_in load_files]. split; [reflexivity|]. split; [reflexivity|]. split; [exact K|]. destruct d6 as [x|]; [split; [reflexivity|exact (K6 x eq_refl)]|exact I].
  - cbn [load_each found_in existsb]. unfold load_all, load_path. unfold closed at 1. pose proof (F p (or_introl eq_refl)) as Fp. unfold fine in Fp.
    destruct (contents (fs p)) as [c|] eqn:C.
    + destruct (Fp c eq_refl) as (s & E). rewrite E. cbn [bind orb].
      destruct (load_files_safe [s] d e ifname hostname K T) as (d1 & E1 & K1). cbn [load_files] in E1. apply bind_ok in E1 as (d1' & E1 & E1'). injection E1' as ->. rewrite E1. cbn [bind].
      destruct d6 as [x|].
      * destruct (load_files_safe [s] x e ifname hostname (K6 x eq_refl) T) as (x1 & E2 & K2). cbn [load_files] in E2. apply bind_ok in E2 as (x1' & E2 & E2'). injection E2' as ->. rewrite E2. cbn [bind]. change (Z.lor 0 0) with 0.
        rewrite (Z.lor_0_r rc). destruct (IH d1 (Some x1) rc K1 ltac:(intros y Y; injection Y as <-; exact K2) Rc ltac:(intros q I; apply F; right; exact I)) as (d' & d6' & A & B & C' & D). exists d', d6'. cbn [load_files]. rewrite E1, E2. cbn [bind].
        split; [exact A|]. split; [exact B|]. split; [exact C'|exact D].
      * cbn [bind]. rewrite (Z.lor_0_r rc). destruct (IH d1 None rc K1 ltac:(discriminate) Rc ltac:(intros q I; apply F; right; exact I)) as (d' & d6' & A & B & C' & D). exists d', d6'. cbn [load_files]. rewrite E1. cbn [bind]. auto.
    + cbn [bind orb]. assert (Z.lor rc 1 = 1 /\ Z.lor 1 1 = 1) as (R1 & R2) by (split; [destruct Rc as [-> | ->]; reflexivity|reflexivity]).
      destruct d6 as [x|]; cbn [bind]; rewrite ?R2, R1.
      * destruct (IH d (Some x) 1 K K6 ltac:(auto) ltac:(intros q I; apply F; right; exact I)) as (d' & d6' & A & B & C' & D). exists d', d6'. split; [rewrite A; destruct (existsb _ l); reflexivity|auto].
      * destruct (IH d None 1 K K6 ltac:(auto) ltac:(intros q I; apply F; right; exact I)) as (d' & d6' & A & B & C' & D). exists d', d6'. split; [rewrite A; destruct (existsb _ l); reflexivity|auto].
Qed.

Lemma before_prefix p a b : before (p ++ a) (p ++ b) = before a b.
Proof. induction p as [|c p IH]; [reflexivity|]. cbn [app before]. rewrite IH, Z.eqb_refl, Z.ltb_irrefl. reflexivity. Qed.
Lemma insert_prefix p x l : insert (p ++ x) (map (app p) l) = map (app p) (insert x l).
Proof. induction l as [|y l IH]; [reflexivity|]. cbn [map insert]. rewrite before_prefix. destruct (before x y); [reflexivity|]. cbn [map]. rewrite IH. reflexivity. Qed.
Lemma sort_prefix p l : sort (map (app p) l) = map (app p) (sort l).
Proof. induction l as [|x l IH]; [reflexivity|]. cbn [map sort fold_right]. fold (sort (map (app p) l)). rewrite IH. apply insert_prefix. Qed.

Definition read_at (fs : disk) (line p n : list Z) : list (list Z * conf_srec) :=
  match contents (fs (p ++ n)) with Some c => match parse line c srec_zero with Ok s => [(n, s)] | _ => [] end | None => [] end.
Lemma found_map fs line p l : found_in fs line (map (app p) l) = map snd (flat_map (read_at fs line p) l).
Proof.
  induction l as [|n l IH]; [reflexivity|]. cbn [map found_in flat_map]. rewrite map_app, <- IH. unfold read_at. destruct (contents _); [|reflexivity]. destruct (parse _ _ _); reflexivity.
Qed.
Lemma read_at_in fs line p n m s : In (m, s) (read_at fs line p n) -> m = n.
Proof. unfold read_at. destruct (contents _); [|intros []]. destruct (parse _ _ _); cbn [In]; intuition congruence. Qed.
Lemma read_at_fst fs line p n : map fst (read_at fs line p n) = [] \/ map fst (read_at fs line p n) = [n].
Proof. unfold read_at. destruct (contents _); [|auto]. destruct (parse _ _ _); auto. Qed.
Lemma listed_sub fs line p l : forall n, In n (map fst (flat_map (read_at fs line p) l)) -> In n l.
Proof. intros n I. apply in_map_iff in I as ([m s] & <- & I). apply in_flat_map in I as (x & Ix & I). apply read_at_in in I. cbn [fst]. congruence. Qed.
Lemma listed_sorted fs line p l : StronglySorted comes_before l -> StronglySorted comes_before (map fst (flat_map (read_at fs line p) l)).
Proof.
  induction 1 as [|x l S IH F]; [constructor|]. cbn [flat_map]. rewrite map_app. destruct (read_at_fst fs line p x) as [-> | ->]; [exact IH|]. cbn [app]. constructor; [exact IH|].
  rewrite Forall_forall in *. intros y I. apply F. eapply listed_sub. exact I.
Qed.
Lemma listed_nodup fs line p l : NoDup l -> NoDup (map fst (flat_map (read_at fs line p) l)).
Proof.
  induction 1 as [|x l N _ IH]; [constructor|]. cbn [flat_map]. rewrite map_app. destruct (read_at_fst fs line p x) as [-> | ->]; [exact IH|]. cbn [app]. constructor; [|exact IH].
  intros I. apply N. eapply listed_sub. exact I.
Qed.
Lemma says_parse line n : zlen line = 256 -> proper_file n -> exists c s, contents n = Some c /\ parse line c srec_zero = Ok s /\ says_service n s.
Proof.
  intros L (lines & last & -> & F & P). destruct (file_keywords line lines last L F P) as (s' & E & D). exists (text lines last), s'. split; [reflexivity|]. split; [exact E|]. exists lines, last. split; [reflexivity|]. split; [exact F|]. split; [exact P|exact D].
Qed.
Lemma cstr_holds b h : holds_string b h -> cstr b = h.
Proof.
  intros (N & rest & ->). induction h as [|c h IH]; [reflexivity|]. cbn [app cstr]. replace (c =? 0) with false by (cbn [In] in N; lia). rewrite IH by (intros I; apply N; right; exact I). reflexivity.
Qed.
Lemma dir_same fs path l : path <> [] -> slashes fs -> fs path = Dir l -> fs (dir_of path) = Dir l.
Proof. intros N S D. unfold dir_of. destruct (_ =? 47); [exact D|]. apply S. exact D. Qed.

Section One.
Variables (fs : disk) (expand : list Z -> option (list (list Z))) (line hostbuf hostnm : list Z) (hostid : Z) (b hostname path : list Z) (e : env) (ifname : list Z).
Hypotheses (Ln : zlen line = 256) (Hn : conf_hostname hostbuf hostnm hostid = Ok b) (Hs : holds_string b hostname) (T : 0 <= fst (e_now e)).

Lemma reads_directory names d d6 : plain_path path -> slashes fs -> fs path = Dir (Some names) -> NoDup names ->
  (forall n, In n names -> service_name n -> proper_file (fs (inside path n)) \/ fs (inside path n) = Locked) ->
  reach d -> (forall x, d6 = Some x -> reach x) ->
  exists L, NoDup (map fst L) /\ StronglySorted comes_before (map fst L) /\ (forall n s, In (n, s) L -> says_service (fs (inside path n)) s) /\
    (forall n, In n (map fst L) <-> In n names /\ service_name n /\ fs (inside path n) <> Locked) /\
    exists d' d6' rc, conf_init fs expand line hostbuf hostnm hostid path d d6 e ifname = Ok (d', d6', rc) /\
      load_files d e ifname hostname (map snd L) = Ok d' /\ reach d' /\
      match d6, d6' with Some x, Some x' => load_files x e ifname hostname (map snd L) = Ok x' /\ reach x' | None, None => True | _, _ => False end /\
      (rc = 0 <-> (exists n, In n names /\ service_name n) /\ forall n, In n names -> service_name n -> fs (inside path n) <> Locked).
Proof.
  intros P S D ND F K K6. pose proof (proj1 P) as N. set (fl := filter (fnmatch S_PATTERN) names). set (p := dir_of path).
  assert (Ip : forall n, inside path n = p ++ n) by (intros n; apply inside_dir; exact N).
  assert (Fl : forall n, In n fl <-> In n names /\ service_name n) by (intros n; unfold fl; rewrite filter_In, service_iff; reflexivity).
  assert (So : forall n, In n (sort fl) <-> In n fl) by (intros n; split; apply Permutation_in; [apply sort_perm|symmetry; apply sort_perm]).
  assert (Fi : forall n, In n fl -> fine fs line (p ++ n)).
  { intros n I c C. apply Fl in I as (I1 & I2). rewrite <- Ip in C. destruct (F n I1 I2) as [Pf|Lk]; [|rewrite Lk in C; discriminate].
    destruct (says_parse line _ Ln Pf) as (c' & s & C' & E & _). exists s. congruence. }
  exists (flat_map (read_at fs line p) (sort fl)). split; [|split; [|split; [|split]]].
  - apply listed_nodup. eapply Permutation_NoDup; [symmetry; apply sort_perm|]. apply NoDup_filter. exact ND.
  - apply listed_sorted, sort_sorted.
  - intros n s I. apply in_flat_map in I as (m & Im & I). pose proof (read_at_in _ _ _ _ _ _ I) as ->. apply So, Fl in Im as (I1 & I2). rewrite Ip. unfold read_at in I.
    destruct (F m I1 I2) as [Pf|Lk]; rewrite Ip in *; [|rewrite Lk in I; destruct I].
    destruct (says_parse line _ Ln Pf) as (c & s' & C & E & Sy). rewrite C, E in I. destruct I as [I|[]]. injection I as ->. exact Sy.
  - intros n. split.
    + intros I. apply in_map_iff in I as ([m s] & <- & I). cbn [fst]. apply in_flat_map in I as (m' & Im & I). pose proof (read_at_in _ _ _ _ _ _ I) as ->. pose proof (proj1 (Fl _) (proj1 (So _) Im)) as (I1 & I2).
      split; [exact I1|]. split; [exact I2|]. rewrite Ip. intros Lk. unfold read_at in I. rewrite Lk in I. destruct I.
    + intros (I1 & I2 & Nl). destruct (F n I1 I2) as [Pf|Lk]; [|contradiction]. destruct (says_parse line _ Ln Pf) as (c & s & C & E & _). rewrite Ip in C.
      apply in_map_iff. exists (n, s). split; [reflexivity|]. apply in_flat_map. exists n. split; [apply So, Fl; auto|]. unfold read_at. rewrite C, E. left. reflexivity.
  - unfold conf_init. rewrite Hn. cbn [bind]. cbv zeta. rewrite (cstr_holds _ _ Hs), D, pattern_ok by exact N. cbn [bind]. rewrite (glob_plain fs expand path names P (dir_same fs path _ N S D)). fold fl p.
    assert (Em : fl = [] -> ~ exists n, In n names /\ service_name n) by (intros Ef (n & I); apply Fl in I; rewrite Ef in I; destruct I).
    destruct fl as [|n0 fl'] eqn:Efl.
    + exists d, d6, 1. split; [reflexivity|]. split; [reflexivity|]. split; [exact K|]. split; [destruct d6 as [x|]; [split; [reflexivity|exact (K6 x eq_refl)]|exact I]|]. split; [discriminate|]. intros [A _]. exfalso. exact (Em eq_refl A).
    + change (fun n => p ++ n) with (app p). rewrite sort_prefix. rewrite <- found_map.
      destruct (load_each_ok fs line e ifname hostname T (map (app p) (sort (n0 :: fl'))) d d6 0 K K6 (or_introl eq_refl)) as (d' & d6' & A & B & C & E).
      { intros q I. apply in_map_iff in I as (n & <- & I). apply Fi. apply So. exact I. }
      exists d', d6', (if existsb (closed fs) (map (app p) (sort (n0 :: fl'))) then 1 else 0). split; [exact A|]. split; [exact B|]. split; [exact C|]. split; [exact E|].
      assert (X : existsb (closed fs) (map (app p) (sort (n0 :: fl'))) = true <-> exists n, In n names /\ service_name n /\ fs (inside path n) = Locked).
      { rewrite existsb_exists. split.
        - intros (q & I & Cl). apply in_map_iff in I as (n & <- & I). apply So, Fl in I as (I1 & I2). exists n. split; [exact I1|]. split; [exact I2|]. destruct (F n I1 I2) as [Pf|Lk]; [|exact Lk].
          exfalso. destruct (says_parse line _ Ln Pf) as (c & s & C' & _). rewrite Ip in C'. unfold closed in Cl. rewrite C' in Cl. discriminate.
        - intros (n & I1 & I2 & Lk). exists (p ++ n). split; [apply in_map, So, Fl; auto|]. unfold closed. rewrite Ip in Lk. rewrite Lk. reflexivity. }
      destruct (existsb (closed fs) _).
      * split; [discriminate|]. intros [_ A2]. exfalso. destruct (proj1 X eq_refl) as (n & I1 & I2 & Lk). exact (A2 n I1 I2 Lk).
      * split; [|reflexivity]. intros _. split; [exists n0; apply Fl; left; reflexivity|]. intros n I1 I2 Lk. assert (false = true) by (apply X; eauto). discriminate.
Qed.

Lemma reads_file d d6 : proper_file (fs path) -> reach d -> (forall x, d6 = Some x -> reach x) ->
  exists s d' d6', says_service (fs path) s /\ conf_init fs expand line hostbuf hostnm hostid path d d6 e ifname = Ok (d', d6', 0) /\ load_files d e ifname hostname [s] = Ok d' /\ reach d' /\
    match d6, d6' with Some x, Some x' => load_files x e ifname hostname [s] = Ok x' /\ reach x' | None, None => True | _, _ => False end.
Proof.
  intros Pf K K6. destruct (says_parse line _ Ln Pf) as (c & s & C & E & Sy).
  destruct (load_each_ok fs line e ifname hostname T [path] d d6 0 K K6 (or_introl eq_refl)) as (d' & d6' & A & B & R & G).
  { intros q [<-|[]] c' C'. exists s. congruence. }
  exists s, d', d6'. split; [exact Sy|]. cbn [found_in existsb] in *. unfold closed in A. rewrite C in A, B, G. rewrite E in B, G. cbn [orb] in A. split; [|auto].
  unfold conf_init. rewrite Hn. cbn [bind]. cbv zeta. rewrite (cstr_holds _ _ Hs). destruct Pf as (lines & last & Ef & _). rewrite Ef. exact A.
Qed.
Lemma reads_nothing d d6 : (fs path = Missing -> conf_init fs expand line hostbuf hostnm hostid path d d6 e ifname = Ok (d, d6, 1)) /\ (fs path = Locked -> conf_init fs expand line hostbuf hostnm hostid path d d6 e ifname = Ok (d, d6, 1)).
Proof.
  split; intros E; unfold conf_init; rewrite Hn; cbn [bind]; cbv zeta; rewrite E; [reflexivity|]. cbn [load_each]. unfold load_all, load_path. rewrite E. cbn [contents bind]. destruct d6; reflexivity.
Qed.

(* What is published *)
Lemma publishes_directory names d d6 ifs : plain_path path -> slashes fs -> fs path = Dir (Some names) -> NoDup names ->
  (forall n, In n names -> service_name n -> proper_file (fs (inside path n)) \/ fs (inside path n) = Locked) ->
  reach d -> (forall r X, ~ record d r X) -> (forall x, d6 = Some x -> reach x /\ forall r X, ~ record x r X) -> e_ifs e = Some ifs ->
  exists L, (forall n s, In (n, s) L -> says_service (fs (inside path n)) s) /\ (forall n, In n (map fst L) <-> In n names /\ service_name n /\ fs (inside path n) <> Locked) /\
    (well_named hostname (map snd L) -> apart hostname (map snd L) ->
     exists d' d6' rc, conf_init fs expand line hostbuf hostnm hostid path d d6 e ifname = Ok (d', d6', rc) /\ publishes d' ifs ifname hostname (map snd L) /\
       match d6, d6' with Some _, Some x' => publishes x' ifs ifname hostname (map snd L) | None, None => True | _, _ => False end).
Proof.
  intros P S D ND F K NR K6 Ei. destruct (reads_directory names d d6 P S D ND F K ltac:(intros x X; apply K6; exact X)) as (L & _ & _ & Sy & Li & d' & d6' & rc & E & E1 & _ & E6 & _).
  exists L. split; [exact Sy|]. split; [exact Li|]. intros W A. exists d', d6', rc. split; [exact E|].
  destruct (services d e ifs ifname hostname (map snd L) K NR T Ei W A) as (d1 & G & _ & H). rewrite G in E1. injection E1 as ->. split; [exact H|].
  destruct d6 as [x|], d6' as [x'|]; try exact E6. destruct E6 as (E6 & _). destruct (K6 x eq_refl) as (Kx & Nx).
  destruct (services x e ifs ifname hostname (map snd L) Kx Nx T Ei W A) as (x1 & Gx & _ & Hx). rewrite Gx in E6. injection E6 as ->. exact Hx.
Qed.
(* Any path, any files of lines that are not blank *)
Lemma reads_safe d d6 : fs [] = Missing ->
  (forall p c, fs p = File c -> exists lines last, c = text lines last /\ Forall (fun l => ~ In 10 l /\ zlen l mod 255 <> 0) lines /\ ~ In 10 last) ->
  reach d -> (forall x, d6 = Some x -> reach x) ->
  exists d' d6' rc, conf_init fs expand line hostbuf hostnm hostid path d d6 e ifname = Ok (d', d6', rc) /\ reach d' /\ (forall x, d6' = Some x -> reach x).
Proof.
  intros M F K K6. unfold conf_init. rewrite Hn. cbn [bind]. cbv zeta.
  assert (Fi : forall p, fine fs line p).
  { intros p c C. destruct (fs p) as [|c'| |l] eqn:Ep; cbn [contents] in C; try discriminate; injection C as <-.
    - destruct (F p c' Ep) as (lines & last & -> & A & B). exact (file_safe line lines last srec_zero Ln A B).
    - destruct (file_safe line [] [] srec_zero Ln (Forall_nil _) (fun x => x)) as (s & E). exists s. exact E. }
  assert (Le : forall l, exists d' d6' rc, load_each fs line d d6 e ifname (cstr b) 0 l = Ok (d', d6', rc) /\ reach d' /\ (forall x, d6' = Some x -> reach x)).
  { intros l. destruct (load_each_ok fs line e ifname (cstr b) T l d d6 0 K K6 (or_introl eq_refl) (fun p _ => Fi p)) as (d' & d6' & A & _ & C & G).
    exists d', d6', (if existsb (closed fs) l then 1 else 0). split; [exact A|]. split; [exact C|]. intros x ->. destruct d6; [apply G|destruct G]. }
  destruct (fs path) as [|c| |l] eqn:Ep; [exists d, d6, 1; auto|apply Le|apply Le|].
  assert (N : path <> []) by (intros ->; congruence). rewrite (pattern_ok _ N). cbn [bind]. destruct (glob _ _ _); [apply Le|exists d, d6, 1; auto].
Qed.
End One.

(* ---- a disk from a list of paths, for examples ---- *)
Fixpoint at_path (l : list (list Z * node)) (p : list Z) : node :=
  match l with [] => Missing | (q, n) :: l => if bytes_eqb p q then n else at_path l p end.
Fixpoint unslash (p : list Z) : list Z := match p with c :: p' => if c =? 47 then unslash p' else p | [] => [] end.
Definition trim (p : list Z) : list Z := rev (unslash (rev p)).
(* The root is at [] *)
Definition disk_of (l : list (list Z * node)) (p : list Z) : node :=
  match p with
  | [] => Missing
  | _ => match at_path l (trim p) with Dir names => Dir names | n => if bytes_eqb p (trim p) then n else Missing end
  end.
Lemma disk_slashes l : slashes (disk_of l).
Proof.
  intros p names. unfold disk_of. destruct p as [|c p]; [discriminate|]. cbn [app]. intros E.
  replace (trim (c :: p ++ [47])) with (trim (c :: p)); [destruct (at_path l (trim (c :: p))); try (destruct (bytes_eqb _ _); discriminate); exact E|].
  unfold trim. f_equal. change (c :: p ++ [47]) with ((c :: p) ++ [47]). rewrite rev_app_distr. reflexivity.
Qed.
