(* Interfaces that come and go under ever new names: how many descriptors are
   open.  Scenario of C99_refuted_gone. *)
From Verif Require Import Base Lemmas Iface SpecIface Main SpecMain FactsIface FactsMain.

(* A kernel that gives descriptors from first on; reading fails on descriptor
   bad. *)
Definition simple (first bad : Z) : kernel := fun tr c =>
  match c with
  | ASocket _ => fold_left (fun m x => Z.max m (x + 1)) (opened tr) first
  | AIo fd => if fd =? bad then 1 else 0
  | ANetlink _ => 1
  | _ => 0
  end.
Lemma fold_max : forall l m, m <= fold_left (fun m x => Z.max m (x + 1)) l m /\ forall x, In x l -> x < fold_left (fun m x => Z.max m (x + 1)) l m.
Proof.
  induction l as [|y l IH]; intros m; cbn [fold_left]; [split; [lia|intros x []]|]. destruct (IH (Z.max m (y + 1))) as [A B]. split; [lia|]. intros x [<-|I]; [lia|exact (B x I)].
Qed.
Lemma simple_honest : forall first bad, honest (simple first bad).
Proof. intros first bad tr f _ I. cbn [simple] in I. destruct (fold_max (opened tr) first) as [_ B]. specialize (B _ I). lia. Qed.

Definition up_entry (n : list Z) (a : Z) : entry := mkentry n (Inet a) false true true true.
Definition plain : turn := mkturn false true false false false None None None.
Definition with_netlink (es : list entry) : turn := mkturn false true false true false None (Some es) None.
(* One interface at a time, but each with a name of its own: the sockets of those
   that are gone stay open, until the fd_set is too small. *)
Definition passing (n : Z) : list entry := [up_entry [118; 48 + n / 100; 48 + n / 10 mod 10; 48 + n mod 10] (167772160 + n)].
Definition passings : list turn := map (fun n => with_netlink (passing (Z.of_nat n))) (seq 1 510).
Definition is_overrun (f : fate unit) : bool := match f with Crash _ FdSet => true | _ => false end.

Definition pname (n : Z) : list Z := [118; 48 + n / 100; 48 + n / 10 mod 10; 48 + n mod 10].
Lemma pname_inj : forall a b, 0 <= a < 1000 -> 0 <= b < 1000 -> pname a = pname b -> a = b.
Proof.
  intros a b A B E. unfold pname in E. pose proof (f_equal (fun l => nth 1 l 0) E) as E1. pose proof (f_equal (fun l => nth 2 l 0) E) as E2. pose proof (f_equal (fun l => nth 3 l 0) E) as E3. cbn [nth] in E1, E2, E3. clear E.
  assert (D : forall n, 0 <= n < 1000 -> n = 100 * (n / 100) + 10 * (n / 10 mod 10) + n mod 10).
  { clear. intros n N. assert (n / 10 = 10 * (n / 100) + n / 10 mod 10); [|lia]. replace (n / 100) with (n / 10 / 10) by (rewrite Z.div_div by lia; reflexivity). lia. }
  specialize (D a A) as Da. specialize (D b B) as Db. clear D. revert E1 E2 E3 Da Db. generalize (a / 100) (b / 100) (a / 10 mod 10) (b / 10 mod 10) (a mod 10) (b mod 10). intros. lia.
Qed.

Notation kern := (simple 3 0).
Definition top (tr : trace) : Z := kern tr (ASocket 0).
Lemma top_other : forall tr c r, (forall f, c <> ASocket f) -> (forall fd, c <> AClose fd) -> top (tr ++ [(c, r)]) = top tr.
Proof. intros tr c r A B. unfold top. cbn [simple]. rewrite opened_snoc. destruct c; try reflexivity; [destruct (A family eq_refl)|destruct (B fd eq_refl)]. Qed.
Lemma top_socket : forall tr f, top (tr ++ [(ASocket f, top tr)]) = top tr + 1.
Proof.
  intros tr f. unfold top at 1. cbn [simple]. rewrite opened_snoc. cbn [note]. destruct (fold_max (opened tr) 3) as [A B]. change (fold_left (fun m x => Z.max m (x + 1)) (opened tr) 3) with (top tr) in *.
  replace (0 <=? top tr) with true by lia. cbn [fold_left].
  assert (G : forall l m y, (forall x, In x l -> x < y) -> m <= y -> fold_left (fun m x => Z.max m (x + 1)) l (Z.max m (y + 1)) = y + 1).
  { clear. induction l as [|x l IH]; intros m y I M; cbn [fold_left]; [lia|]. pose proof (I x (or_introl eq_refl)). replace (Z.max (Z.max m (y + 1)) (x + 1)) with (Z.max m (y + 1)) by lia. apply IH; [intros z J; apply I; right; exact J|exact M]. }
  apply G; [exact B|exact A].
Qed.
Lemma top_setopts : forall l tr fd, top (setopts kern tr fd l) = top tr.
Proof. induction l as [|o l IH]; intros tr fd; cbn [setopts]; [reflexivity|]. rewrite IH. apply top_other; discriminate. Qed.
Lemma top_pos : forall tr, 3 <= top tr.
Proof. intros tr. exact (proj1 (fold_max (opened tr) 3)). Qed.
Lemma socket_top : forall tr name ttl family, exists tr', multicast_socket kern tr name ttl family = (tr', top tr) /\ top tr' = top tr + 1.
Proof.
  intros tr name ttl family. unfold multicast_socket. change (kern tr (ASocket family)) with (top tr). pose proof (top_pos tr). replace (top tr <? 0) with false by lia. cbv zeta.
  set (tr1 := setopts _ _ _ _). change (kern tr1 (ABind (top tr) PORT)) with 0. cbn [Z.eqb negb]. eexists. split; [reflexivity|]. rewrite top_other by discriminate. unfold tr1. rewrite top_setopts. apply top_socket.
Qed.

Lemma setup_app : forall k ttl l1 l2 tr, (forall i, In i l1 -> i_changed i = false) -> setup_all k tr ttl (l1 ++ l2) = next (setup_all k tr ttl l2) (fun tr l => Go tr (l1 ++ l)).
Proof.
  intros k ttl. induction l1 as [|i l1 IH]; intros l2 tr C; cbn [app setup_all]; [destruct (setup_all k tr ttl l2); reflexivity|]. unfold setup_iface. rewrite (C i (or_introl eq_refl)). cbn [negb next].
  rewrite IH by (intros j J; apply C; right; exact J). destruct (setup_all k tr ttl l2); reflexivity.
Qed.
Lemma serve_app : forall k l1 l2 tr, (forall i, In i l1 -> i_unused i = true) -> serve k tr (l1 ++ l2) = next (serve k tr l2) (fun tr l => Go tr (l1 ++ l)).
Proof.
  intros k. induction l1 as [|i l1 IH]; intros l2 tr C; cbn [app serve]; [destruct (serve k tr l2); reflexivity|]. unfold serve1. rewrite (C i (or_introl eq_refl)). cbn [orb next].
  rewrite IH by (intros j J; apply C; right; exact J). destruct (serve k tr l2); reflexivity.
Qed.
Lemma find_none : forall l name n, (forall i, In i l -> i_name i <> name) -> iface_find l name n = None.
Proof.
  induction l as [|x l IH]; intros name n C; cbn [iface_find]; [reflexivity|]. destruct (bytes_eqb (i_name x) name) eqn:E; [apply bytes_eqb_eq in E; destruct (C x (or_introl eq_refl) E)|]. apply IH. intros i I. apply C. right. exact I.
Qed.
Lemma init_passing : forall l n, 0 <= n < 1000 -> (forall i, In i l -> i_name i <> pname n) ->
  iface_init None (passing n) l = map mark1 l ++ [mkiface false true (pname n) (167772160 + n) 0 IN6_ANY IN6_ANY (-1) (-1) false false 1].
Proof.
  intros l n N C. unfold iface_init, passing. cbn [iface_scan]. unfold skipped, up_entry. cbn [n_sock n_loopback n_multicast n_up n_numeric n_name negb orb].
  assert (F : iface_find (mark l) (pname n) 0 = None). { apply find_none. intros i I. unfold mark in I. apply in_map_iff in I as (x & <- & I). exact (C x I). }
  unfold pname in F. rewrite F. unfold iface_new. cbn [firstn].
  rewrite nth_error_app2 by apply Nat.le_refl. rewrite Nat.sub_diag. cbn [nth_error]. unfold take. cbn [i_addr]. replace (0 =? 167772160 + n) with false by lia. cbn [negb]. change (IN_ZERONET 0 || IN_LINKLOCAL 0) with true. cbn iota.
  assert (U : forall (a : list iface) x y, upd (a ++ [x]) (length a) y = a ++ [y]) by (clear; induction a as [|z a IH]; intros x y; cbn [app length upd]; [reflexivity|rewrite IH; reflexivity]).
  rewrite U. unfold with_addr. cbn [i_unused i_changed i_name i_addr i_addr_old i_addr6 i_addr6_old i_sd i_sd6 i_mdns i_mdns6 i_hostid]. unfold sweep. rewrite map_app. f_equal.
  - unfold mark. rewrite map_map. apply map_ext. intros i. reflexivity.
  - cbn [map]. unfold sweep1. cbn [i_unused i_changed i_addr i_addr_old negb]. replace (167772160 + n =? 0) with false by lia. reflexivity.
Qed.

Definition fresh_iface (n fd : Z) : iface := mkiface false false (pname n) (167772160 + n) 0 IN6_ANY IN6_ANY fd (fd + 1) true true 1.
Lemma pass_turn : forall tr l n, 0 <= n < 1000 -> (forall i, In i l -> i_changed i = false) -> (forall i, In i l -> i_name i <> pname n) -> (forall fd, In fd (watched 5 l) -> fd < 1024) ->
  exists tr', loop_turn kern tr None 255 5 (with_netlink (passing n)) l = Go tr' (Some (map mark1 l ++ [fresh_iface n (top tr)])) /\ top tr' = top tr + 2.
Proof.
  intros tr l n N C D W. unfold loop_turn. cbv zeta.
  assert (E : existsb (fun fd => FD_SETSIZE <=? fd) (watched 5 l) = false).
  { destruct (existsb _ _) eqn:E; [|reflexivity]. apply existsb_exists in E as (fd & I & K). apply W in I. change FD_SETSIZE with 1024 in K. lia. }
  rewrite E. cbn [with_netlink t_eintr t_reload t_nlready t_poll t_es2 orb andb Z.leb Z.compare].
  set (tr1 := tr ++ [(ASelect (watched 5 l), kern tr (ASelect (watched 5 l)))]). assert (T1 : top tr1 = top tr) by (apply top_other; discriminate).
  change (kern tr1 (ANetlink 5)) with 1. cbn [Z.ltb Z.compare]. set (tr2 := tr1 ++ [(ANetlink 5, 1)]). assert (T2 : top tr2 = top tr) by (rewrite <- T1; apply top_other; discriminate).
  unfold sys_init. rewrite (init_passing l n N D). rewrite setup_app.
  2:{ intros i I. apply in_map_iff in I as (x & <- & I). exact (C x I). }
  cbn [setup_all]. unfold setup_iface. cbn [i_changed i_unused i_sd i_sd6 i_name negb Z.ltb Z.compare i_addr i_addr_old i_addr6 i_addr6_old i_mdns6 i_hostid orb].
  destruct (socket_top tr2 (pname n) 255 FAM4) as (tr3 & E3 & T3). rewrite E3. rewrite T2 in *. pose proof (top_pos tr) as Tp. replace (top tr <? 0) with false by lia.
  destruct (socket_top tr3 (pname n) 255 FAM6) as (tr4 & E4 & T4). rewrite E4. rewrite T3 in *. replace (0 <=? top tr + 1) with true by lia. cbn [next cons_opt].
  rewrite serve_app by (intros i I; apply in_map_iff in I as (x & <- & _); reflexivity). cbn [serve]. unfold serve1. cbn [i_unused i_sd i_mdns negb orb i_mdns6 i_sd6 andb].
  replace (top tr <? 0) with false by lia. cbv zeta. set (c1 := AIo (top tr)). assert (K1 : kern tr4 c1 = 0) by (unfold c1; cbn [simple]; replace (top tr =? 0) with false by lia; reflexivity). rewrite K1. cbn [Z.eqb negb].
  replace (0 <=? top tr + 1) with true by lia. set (tr5 := tr4 ++ [(c1, 0)]). assert (K2 : kern tr5 (AIo (top tr + 1)) = 0) by (cbn [simple]; replace (top tr + 1 =? 0) with false by lia; reflexivity). rewrite K2. cbn [Z.eqb negb next cons_opt].
  eexists. split; [reflexivity|]. rewrite top_other by discriminate. unfold tr5, c1. rewrite top_other by discriminate. lia.
Qed.
Lemma watched_last : forall l x, (forall i, In i l -> i_unused i = true) -> watched 5 (l ++ [x]) = watched 5 [x].
Proof.
  intros l x C. unfold watched. f_equal. rewrite map_app, concat_app. replace (concat (map _ l)) with ([] : list Z); [reflexivity|]. induction l as [|i l IH]; [reflexivity|]. cbn [map concat]. rewrite (C i (or_introl eq_refl)), orb_true_r. apply IH. intros j J. apply C. right. exact J.
Qed.
Lemma passes : forall m a tr l, (a + m = 511)%nat -> (1 <= a)%nat -> (forall i, In i l -> i_changed i = false) -> (forall i, In i l -> exists n, (n < a)%nat /\ i_name i = pname (Z.of_nat n)) ->
  watched 5 l = [5; 2 * Z.of_nat a + 1 - (if Nat.eqb a 1 then 0 else -1); 2 * Z.of_nat a + 2 - (if Nat.eqb a 1 then 0 else -1)] -> top tr = 2 * Z.of_nat a + 4 ->
  exists tr', main_loop kern tr None 255 5 (map (fun n => with_netlink (passing (Z.of_nat n))) (seq a m) ++ [plain]) l = Crash tr' FdSet.
Proof.
  induction m as [|m IH]; intros a tr l S1 A C D W T.
  - cbn [seq map app main_loop]. unfold loop_turn. rewrite W. destruct (Nat.eqb_spec a 1); [lia|]. cbn [existsb]. change FD_SETSIZE with 1024. replace (1024 <=? 2 * Z.of_nat a + 2 - -1) with true by lia. rewrite !orb_true_r. eexists. reflexivity.
  - cbn [seq map app main_loop]. destruct (pass_turn tr l (Z.of_nat a)) as (tr1 & E1 & T1).
    + lia.
    + exact C.
    + intros i I. destruct (D i I) as (n & B & ->). intros K. apply pname_inj in K; lia.
    + intros fd I. rewrite W in I. destruct (Nat.eqb_spec a 1); destruct I as [<-|[<-|[<-|[]]]]; lia.
    + rewrite E1. cbn [next]. apply (IH (S a)).
      * lia.
      * lia.
      * intros i I. apply in_app_or in I as [I|[<-|[]]]; [|reflexivity]. apply in_map_iff in I as (x & <- & I). exact (C x I).
      * intros i I. apply in_app_or in I as [I|[<-|[]]]; [|exists a; split; [lia|reflexivity]]. apply in_map_iff in I as (x & <- & I). destruct (D x I) as (n & B & En). exists n. split; [lia|exact En].
      * rewrite watched_last by (intros i I; apply in_map_iff in I as (x & <- & _); reflexivity). unfold watched. cbn [fresh_iface map concat i_sd i_sd6 i_unused Z.leb Z.compare app]. rewrite T. replace (2 * Z.of_nat a + 4 <? 0) with false by lia. replace (0 <=? 2 * Z.of_nat a + 4 + 1) with true by lia. cbn [orb app].
        destruct (Nat.eqb_spec (S a) 1); [lia|]. apply (f_equal2 cons); [reflexivity|]. apply (f_equal2 cons); [lia|]. apply (f_equal2 cons); [lia|reflexivity].
      * lia.
Qed.
Lemma passing_overrun : is_overrun (main kern None 255 (Some (passing 0)) (passings ++ [plain])) = true.
Proof.
  unfold main. change (255 mod 256) with 255.
  assert (E0 : exists tr, sys_init kern [] None 255 (Some (passing 0)) [] = Go tr [fresh_iface 0 3] /\ top tr = 5 /\ netlink_init kern tr = (tr ++ [(ASocket FAMNL, 5); (ABind 5 0, 0)], 5)) by (eexists; split; [vm_compute; reflexivity|split; vm_compute; reflexivity]).
  destruct E0 as (tr & E0 & T0 & E1). rewrite E0. cbn [next]. rewrite E1.
  destruct (passes 510 1 (tr ++ [(ASocket FAMNL, 5); (ABind 5 0, 0)]) [fresh_iface 0 3]) as (tr' & E2).
  - reflexivity.
  - lia.
  - intros i [<-|[]]. reflexivity.
  - intros i [<-|[]]. exists 0%nat. split; [lia|reflexivity].
  - reflexivity.
  - change [(ASocket FAMNL, 5); (ABind 5 0, 0)] with ([(ASocket FAMNL, 5)] ++ [(ABind 5 0, 0)]). rewrite app_assoc, top_other by discriminate. rewrite <- T0, top_socket, T0. reflexivity.
  - unfold passings. rewrite E2. reflexivity.
Qed.
