(* mdnsd_free gives back what the daemon holds, once. *)
From Verif Require Import Base Lemmas Hash HashProofs Wire Rec Qry Out In Api RecInv RecSafe RecOps QryInv DaemonInv SpecDaemon FactsCalls FactsFate Free SpecFree.

Lemma parts_has : forall a p, In p (answer_parts a) <-> has a p.
Proof.
  intros a p. unfold answer_parts. rewrite !in_app_iff. destruct (a_rdata a) eqn:E1, (a_rdname a) eqn:E2; destruct p; cbn [In has]; rewrite ?E1, ?E2; intuition (try discriminate; try congruence).
Qed.
Lemma parts_nodup : forall a, NoDup (answer_parts a).
Proof.
  intros a. unfold answer_parts. destruct (a_rdata a), (a_rdname a); cbn [app]; repeat constructor; cbn [In]; intuition discriminate.
Qed.
Lemma nodup_map : forall (A B : Type) (f : A -> B) l, (forall x y, f x = f y -> x = y) -> NoDup l -> NoDup (map f l).
Proof.
  intros A B f l K N. induction N as [|x l I N IH]; [constructor|]. cbn [map]. constructor; [|exact IH]. intros J. apply in_map_iff in J as (y & E & J). apply K in E. congruence.
Qed.
Lemma nodup_join : forall (A : Type) (a b : list A), NoDup a -> NoDup b -> (forall x, In x a -> ~ In x b) -> NoDup (a ++ b).
Proof.
  intros A a b Na Nb D. induction Na as [|x a I Na IH]; [exact Nb|]. cbn [app]. constructor.
  - intros J. apply in_app_iff in J as [J|J]; [exact (I J)|exact (D x (or_introl eq_refl) J)].
  - apply IH. intros y Iy. apply D. right. exact Iy.
Qed.

Lemma nodup_left : forall (A : Type) (a b : list A), NoDup (a ++ b) -> NoDup a.
Proof. intros A a b N. induction a as [|x a IH]; [constructor|]. cbn [app] in N. apply NoDup_cons_iff in N as [N1 N2]. constructor; [intros I; apply N1; apply in_or_app; auto|auto]. Qed.
Lemma nodup_right : forall (A : Type) (a b : list A), NoDup (a ++ b) -> NoDup b.
Proof. intros A a b N. induction a as [|x a IH]; [exact N|]. cbn [app] in N. apply NoDup_cons_iff in N as [N1 N2]. auto. Qed.

Lemma chain_in : forall i l b, In b (free_chain i l) <-> exists c p, In c l /\ has (c_rr c) p /\ b = BCached i (c_id c) p.
Proof.
  intros i l b. unfold free_chain. rewrite in_flat_map. split.
  - intros (c & Ic & I). apply in_map_iff in I as (p & <- & I). apply parts_has in I. eauto.
  - intros (c & p & Ic & Hp & ->). exists c. split; [exact Ic|]. apply in_map. apply parts_has. exact Hp.
Qed.
Lemma chain_nodup : forall i l, NoDup (map c_id l) -> NoDup (free_chain i l).
Proof.
  intros i l. induction l as [|c l IH]; intros N; [constructor|]. cbn [map] in N. apply NoDup_cons_iff in N as [N1 N2]. cbn [free_chain flat_map]. apply nodup_join.
  - apply nodup_map; [intros x y [= E]; exact E|apply parts_nodup].
  - apply IH. exact N2.
  - intros b I J. apply in_map_iff in I as (p & <- & _). apply chain_in in J as (c' & p' & Ic & _ & E). injection E as E _. apply N1. rewrite E. apply in_map. exact Ic.
Qed.
Lemma cache_in : forall l i b, In b (free_cache i l) <-> exists j c p, In c (nth j l []) /\ has (c_rr c) p /\ b = BCached (i + j) (c_id c) p.
Proof.
  induction l as [|c l IH]; intros i b; cbn [free_cache].
  - split; [intros []|]. intros (j & c & p & I & _). destruct j; destruct I.
  - rewrite in_app_iff, chain_in, IH. split.
    + intros [(c' & p & I & Hp & ->)|(j & c' & p & I & Hp & ->)]; [exists 0%nat, c', p; rewrite Nat.add_0_r; auto|exists (S j), c', p; rewrite <- Nat.add_succ_comm; auto].
    + intros ([|j] & c' & p & I & Hp & ->); [left; exists c', p; rewrite Nat.add_0_r; auto|right; exists j, c', p; rewrite Nat.add_succ_comm; auto].
Qed.
Lemma cache_nodup : forall l i, (forall j, NoDup (map c_id (nth j l []))) -> NoDup (free_cache i l).
Proof.
  induction l as [|c l IH]; intros i N; cbn [free_cache]; [constructor|]. apply nodup_join; [apply chain_nodup; exact (N 0%nat)|apply IH; intros j; exact (N (S j))|].
  intros b I J. apply chain_in in I as (c1 & p1 & _ & _ & ->). apply cache_in in J as (j & c2 & p2 & _ & _ & E). injection E as E _ _. lia.
Qed.

Lemma records_freed : forall l h, NoDup l -> (forall x, In x l -> h x <> None) -> exists h' bl, free_records h l = Ok (h', bl) /\ (forall x, h' x = if in_dec Nat.eq_dec x l then None else h x) /\
  NoDup bl /\ forall b, In b bl <-> exists r X p, In r l /\ h r = Some X /\ has (rr X) p /\ b = BRecord r p.
Proof.
  induction l as [|x l IH]; intros h N A; cbn [free_records].
  - exists h, []. split; [reflexivity|]. split; [reflexivity|]. split; [constructor|]. intros b. split; [intros []|]. intros (r & X & p & [] & _).
  - apply NoDup_cons_iff in N as [N1 N2]. destruct (h x) as [X|] eqn:E; [|destruct (A x (or_introl eq_refl) E)]. rewrite (hget_some _ _ _ E). cbn [bind].
    destruct (IH (hdel h x) N2) as (h' & bl & E1 & Hh & Nb & Ib).
    { intros y Iy. unfold hdel. destruct (Nat.eqb_spec y x) as [->|D]; [contradiction|]. apply A. right. exact Iy. }
    rewrite E1. cbn [bind fst snd]. eexists. eexists. split; [reflexivity|]. split; [|split].
    + intros y. rewrite Hh. unfold hdel. destruct (in_dec Nat.eq_dec y l) as [I|I]; destruct (in_dec Nat.eq_dec y (x :: l)) as [J|J]; cbn [In] in *; destruct (Nat.eqb_spec y x) as [D|D]; auto; exfalso; intuition congruence.
    + apply nodup_join; [apply nodup_map; [intros ? ? [= K]; exact K|apply parts_nodup]|exact Nb|]. intros b I J. apply in_map_iff in I as (p & <- & _). apply Ib in J as (r & Y & p' & Ir & _ & _ & K). injection K as K _. congruence.
    + intros b. rewrite in_app_iff, Ib. split.
      * intros [I|(r & Y & p & Ir & EY & Hp & ->)]; [apply in_map_iff in I as (p & <- & I); apply parts_has in I; exists x, X, p; cbn [In]; auto|].
        exists r, Y, p. unfold hdel in EY. destruct (Nat.eqb r x); [discriminate|]. cbn [In]. auto.
      * intros (r & Y & p & [<-|Ir] & EY & Hp & ->); [left; rewrite E in EY; injection EY as <-; apply in_map; apply parts_has; exact Hp|]. right. exists r, Y, p. split; [exact Ir|]. split; [|auto].
        unfold hdel. destruct (Nat.eqb_spec r x) as [->|D]; [contradiction|exact EY].
Qed.
Lemma queries_freed : forall l s, NoDup l -> (forall x, In x l -> qh s x <> None) -> exists s' bl, free_queries s l = Ok (s', bl) /\ (forall x, qh s' x = if in_dec Nat.eq_dec x l then None else qh s x) /\
  NoDup bl /\ forall b, In b bl <-> exists q p, In q l /\ (p = PName \/ p = PStruct) /\ b = BQuery q p.
Proof.
  induction l as [|x l IH]; intros s N A; cbn [free_queries].
  - exists s, []. split; [reflexivity|]. split; [reflexivity|]. split; [constructor|]. intros b. split; [intros []|]. intros (r & p & [] & _).
  - apply NoDup_cons_iff in N as [N1 N2]. destruct (qh s x) as [X|] eqn:E; [|destruct (A x (or_introl eq_refl) E)]. rewrite (qget_some _ _ _ E). cbn [bind].
    destruct (IH (set_qh s (fun y => if Nat.eqb y x then None else qh s y)) N2) as (s' & bl & E1 & Hh & Nb & Ib).
    { intros y Iy. cbn [set_qh qh]. destruct (Nat.eqb_spec y x) as [->|D]; [contradiction|]. apply A. right. exact Iy. }
    rewrite E1. cbn [bind fst snd]. eexists. eexists. split; [reflexivity|]. split; [|split].
    + intros y. rewrite Hh. cbn [set_qh qh]. destruct (in_dec Nat.eq_dec y l) as [I|I]; destruct (in_dec Nat.eq_dec y (x :: l)) as [J|J]; cbn [In] in *; destruct (Nat.eqb_spec y x) as [D|D]; auto; exfalso; intuition congruence.
    + apply nodup_join; [repeat constructor; cbn [In]; intuition discriminate|exact Nb|]. intros b I J. apply Ib in J as (q & p & Iq & _ & ->). cbn [In] in I. destruct I as [I|[I|[]]]; injection I as I _; congruence.
    + intros b. rewrite in_app_iff, Ib. cbn [In]. split.
      * intros [[<-|[<-|[]]]|(q & p & Iq & Hp & ->)]; [exists x, PName|exists x, PStruct|exists q, p]; auto.
      * intros (q & p & [<-|Iq] & Hp & ->); [left; destruct Hp as [->| ->]; auto|right; exists q, p; auto].
Qed.

Lemma tables_freed : forall rs qs h s, length rs = length qs -> NoDup (concat rs) -> NoDup (concat qs) -> (forall x, In x (concat rs) -> h x <> None) -> (forall x, In x (concat qs) -> qh s x <> None) ->
  exists bl, free_tables h s rs qs = Ok bl /\ NoDup bl /\
  forall b, In b bl <-> (exists r X p, In r (concat rs) /\ h r = Some X /\ has (rr X) p /\ b = BRecord r p) \/ (exists q p, In q (concat qs) /\ (p = PName \/ p = PStruct) /\ b = BQuery q p).
Proof.
  induction rs as [|r rs IH]; intros [|q qs] h s Ln Nr Nq Ar Aq; try discriminate; cbn [free_tables].
  - exists []. split; [reflexivity|]. split; [constructor|]. intros b. cbn [concat In]. split; [intros []|]. intros [(? & ? & ? & [] & _)|(? & ? & [] & _)].
  - cbn [concat length] in *. assert (Nr' := Nr). assert (Nq' := Nq). apply nodup_right in Nr'. apply nodup_right in Nq'.
    assert (Dr : forall x, In x r -> ~ In x (concat rs)) by (intros x; apply nodup_part; exact Nr). assert (Dq : forall x, In x q -> ~ In x (concat qs)) by (intros x; apply nodup_part; exact Nq).
    apply nodup_left in Nr. apply nodup_left in Nq.
    destruct (records_freed r h Nr) as (h' & bl & E1 & Hh & Nb & Ib); [intros x Ix; apply Ar; apply in_or_app; auto|].
    destruct (queries_freed q s Nq) as (s' & bq & E2 & Hs & Nbq & Ibq); [intros x Ix; apply Aq; apply in_or_app; auto|].
    destruct (IH qs h' s' ltac:(lia) Nr' Nq') as (bt & E3 & Nt & It).
    { intros x Ix. rewrite Hh. destruct (in_dec Nat.eq_dec x r) as [J|J]; [destruct (Dr x J Ix)|]. apply Ar. apply in_or_app. auto. }
    { intros x Ix. rewrite Hs. destruct (in_dec Nat.eq_dec x q) as [J|J]; [destruct (Dq x J Ix)|]. apply Aq. apply in_or_app. auto. }
    rewrite E1. cbn [bind fst snd]. rewrite E2. cbn [bind fst snd]. rewrite E3. cbn [bind]. eexists. split; [reflexivity|]. split.
    + apply nodup_join; [exact Nb| |].
      * apply nodup_join; [exact Nbq|exact Nt|]. intros b I J. apply Ibq in I as (y & p & Iy & _ & ->). apply It in J as [(? & ? & ? & _ & _ & _ & K)|(y' & p' & Iy' & _ & K)]; [discriminate|]. injection K as <- _. exact (Dq y Iy Iy').
      * intros b I J. apply Ib in I as (y & Y & p & Iy & _ & _ & ->). apply in_app_iff in J as [J|J]; [apply Ibq in J as (? & ? & _ & _ & K); discriminate|].
        apply It in J as [(y' & ? & ? & Iy' & _ & _ & K)|(? & ? & _ & _ & K)]; [|discriminate]. injection K as <- _. exact (Dr y Iy Iy').
    + intros b. rewrite !in_app_iff, Ib, Ibq, It. split.
      * intros [(y & Y & p & Iy & K)|[(y & p & Iy & K)|[(y & Y & p & Iy & EY & K)|(y & p & Iy & K)]]].
        -- left. exists y, Y, p. rewrite in_app_iff. auto.
        -- right. exists y, p. rewrite in_app_iff. auto.
        -- left. exists y, Y, p. rewrite in_app_iff. split; [auto|]. split; [|exact K]. rewrite Hh in EY. destruct (in_dec Nat.eq_dec y r); [discriminate|exact EY].
        -- right. exists y, p. rewrite in_app_iff. auto.
      * intros [(y & Y & p & Iy & EY & K)|(y & p & Iy & K)]; apply in_app_iff in Iy as [Iy|Iy].
        -- left. exists y, Y, p. auto.
        -- right. right. left. exists y, Y, p. split; [exact Iy|]. split; [|exact K]. rewrite Hh. destruct (in_dec Nat.eq_dec y r) as [J|J]; [destruct (Dr y J Iy)|exact EY].
        -- right. left. exists y, p. auto.
        -- right. right. right. exists y, p. auto.
Qed.

Lemma freed_tables : forall d, pok (R d) -> qinv (Q d) -> exists bl, mdnsd_free d = Ok bl /\ NoDup bl /\ forall b, In b bl <-> allocated d b.
Proof.
  intros d P C. unfold mdnsd_free.
  destruct (tables_freed (pub (R d)) (qtab (Q d)) (hp (R d)) (Q d)) as (bl & E & N & I).
  - rewrite (pk_len _ P), (qi_tlen _ C). reflexivity.
  - exact (pk_nodup _ P).
  - exact (qi_tnodup _ C).
  - intros x Ix. apply (pk_live _ P). exact Ix.
  - intros x Ix. apply (qi_live _ C). apply (qi_tab _ C). exact Ix.
  - rewrite E. cbn [bind]. eexists. split; [reflexivity|].
    assert (IC : forall b, In b (free_cache 0 (cache (Q d))) <-> exists j c p, In c (nth j (cache (Q d)) []) /\ has (c_rr c) p /\ b = BCached j (c_id c) p) by (intros b; rewrite cache_in; reflexivity).
    set (t := (match ifs d with Some (_ :: _) => [BIfaddrs] | _ => [] end) ++ [BDaemon]).
    assert (It : forall b, In b t <-> (b = BIfaddrs /\ exists i l, ifs d = Some (i :: l)) \/ b = BDaemon).
    { intros b. unfold t. rewrite in_app_iff. destruct (ifs d) as [[|i l]|]; cbn [In]; (split; [intros [A|[<-|[]]]; auto|intros [[-> (i' & l' & A)]| ->]; auto]); try discriminate A; try destruct A; eauto; contradiction. }
    assert (IU : forall b, In b (map BReply (seq 0 (length (uans (R d))))) <-> exists n, (n < length (uans (R d)))%nat /\ b = BReply n).
    { intros b. rewrite in_map_iff. split; [intros (n & <- & In_)|intros (n & L & ->)]; exists n; [apply in_seq in In_; split; [lia|reflexivity]|split; [reflexivity|apply in_seq; lia]]. }
    split.
    + apply nodup_join; [apply cache_nodup; exact (qi_cid _ C)| |].
      * apply nodup_join; [exact N| |].
        -- apply nodup_join; [apply nodup_map; [intros x y [= F]; exact F|apply seq_NoDup]| |].
           ++ unfold t. destruct (ifs d) as [[|? ?]|]; cbn [app]; repeat constructor; cbn [In]; intuition discriminate.
           ++ intros b J J2. apply IU in J as (n & _ & ->). apply It in J2 as [[J2 _]|J2]; discriminate.
        -- intros b J J2. apply I in J. rewrite in_app_iff, IU, It in J2. destruct J as [(? & ? & ? & _ & _ & _ & ->)|(? & ? & _ & _ & ->)]; destruct J2 as [(? & _ & ?)|[[? _]|?]]; discriminate.
      * intros b J J2. apply IC in J as (? & ? & ? & _ & _ & ->). rewrite !in_app_iff, I, IU in J2. fold t in J2. rewrite It in J2.
        destruct J2 as [[(? & ? & ? & _ & _ & _ & ?)|(? & ? & _ & _ & ?)]|[(? & _ & ?)|[[? _]|?]]]; discriminate.
    + intros b. rewrite !in_app_iff, IC, I, IU, It. destruct b as [i id p|r p|q p|n| |]; cbn [allocated].
      * split; [intros [(j & c & p' & A & B & [= -> -> ->])|[[(? & ? & ? & _ & _ & _ & ?)|(? & ? & _ & _ & ?)]|[(? & _ & ?)|[[? _]|?]]]]; try discriminate; eauto|]. intros (c & A & <- & B). left. eauto 6.
      * split.
        -- intros [(? & ? & ? & _ & _ & ?)|[[(r' & X & p' & A & B & G & [= -> ->])|(? & ? & _ & _ & ?)]|[(? & _ & ?)|[[? _]|?]]]]; try discriminate. exists X. auto.
        -- intros (X & A & B). right. left. left. exists r, X, p. split; [apply (pk_live _ P); unfold record in A; congruence|auto].
      * split.
        -- intros [(? & ? & ? & _ & _ & ?)|[[(? & ? & ? & _ & _ & _ & ?)|(q' & p' & A & B & [= -> ->])]|[(? & _ & ?)|[[? _]|?]]]]; try discriminate. split; [apply (qi_live _ C); apply (qi_tab _ C); exact A|exact B].
        -- intros (A & B). right. left. right. exists q, p. split; [apply (qi_tab _ C); apply (qi_live _ C); exact A|auto].
      * split; [intros [(? & ? & ? & _ & _ & ?)|[[(? & ? & ? & _ & _ & _ & ?)|(? & ? & _ & _ & ?)]|[(n' & A & [= ->])|[[? _]|?]]]]; try discriminate; exact A|]. intros A. right. right. left. eauto.
      * split; [intros [(? & ? & ? & _ & _ & ?)|[[(? & ? & ? & _ & _ & _ & ?)|(? & ? & _ & _ & ?)]|[(? & _ & ?)|[[_ A]|?]]]]; try discriminate; exact A|]. intros A. right. right. right. left. auto.
      * split; [auto|]. intros _. right. right. right. right. reflexivity.
Qed.
Lemma freed_once : forall d, reach d -> exists bl, mdnsd_free d = Ok bl /\ NoDup bl /\ forall b, In b bl <-> allocated d b.
Proof. intros d K. destruct (reach_dinv d K) as (qs & H & (C & _)). exact (freed_tables d (ri_p _ _ H) C). Qed.
