(* Supporting proofs for PropMqText.v. *)
From Coq Require Import String Ascii.
From Verif Require Import Base Lemmas Lib SpecLib Wire Rec Conf FactsConf Reent Mquery MqText SpecMqText.

Lemma dec_zero : dec 0 = [48].
Proof. reflexivity. Qed.
Lemma dec_numeral : forall n, 0 <= n < 2 ^ 31 -> is_dec (dec n) /\ dec_value (dec n) = n /\ zlen (dec n) <= 10.
Proof.
  intros n B. destruct (Z.eq_dec n 0) as [->|N]; [rewrite dec_zero; split; [split; [discriminate|repeat constructor; lia]|split; [reflexivity|cbn; lia]]|].
  destruct (dec_spec n ltac:(lia)) as (D & V & _ & L). auto.
Qed.
Lemma fmt_numeral : forall n, - 2 ^ 31 <= n < 2 ^ 31 -> numeral n (fmt_d n).
Proof.
  intros n B. unfold fmt_d. destruct (n <? 0) eqn:E; [|destruct (dec_numeral n ltac:(lia)) as (D & V & _); exists (dec n); auto].
  destruct (Z.eq_dec n (- 2 ^ 31)) as [->|N].
  - exists (dec (2 ^ 31)). replace (- - 2 ^ 31) with (2 ^ 31) by lia. split; [vm_compute; split; [discriminate|repeat constructor; discriminate]|]. right. split; reflexivity.
  - destruct (dec_numeral (- n) ltac:(lia)) as (D & V & _). exists (dec (- n)). split; [exact D|]. right. auto.
Qed.
Lemma numeral_fun : forall n m s, numeral n s -> numeral m s -> n = m.
Proof.
  intros n m s (ds & (D0 & D) & Hn) (es & (E0 & E) & Hm). destruct Hn as [(-> & <-)|(-> & Vn)], Hm as [(Em & <-)|(Em & Vm)].
  - rewrite Em. reflexivity.
  - rewrite Em in D. inversion D. lia.
  - rewrite <- Em in E. inversion E. lia.
  - injection Em as <-. lia.
Qed.
Lemma numeral_chars : forall n s x, numeral n s -> In x s -> x = 45 \/ 48 <= x <= 57.
Proof.
  intros n s x (ds & (_ & D) & H) I. rewrite Forall_forall in D. destruct H as [(-> & _)|(-> & _)]; [right; apply D; exact I|]. destruct I as [<-|I]; [left; reflexivity|right; apply D; exact I].
Qed.
Lemma numeral_free : forall n s x, numeral n s -> x < 45 \/ 57 < x -> ~ In x s.
Proof. intros n s x N X I. destruct (numeral_chars n s x N I); lia. Qed.
(* Two ways to split a text at the first separator are one. *)
Lemma split_at : forall (c : Z) (x y r s : list Z), ~ In c x -> ~ In c y -> x ++ c :: r = y ++ c :: s -> x = y /\ r = s.
Proof.
  intros c x. induction x as [|a x IH]; intros y r s Nx Ny E; destruct y as [|b y]; cbn [app] in E.
  - injection E as ->. auto.
  - injection E as -> _. exfalso. apply Ny. left. reflexivity.
  - injection E as -> _. exfalso. apply Nx. left. reflexivity.
  - injection E as -> E. destruct (IH y r s ltac:(intros I; apply Nx; right; exact I) ltac:(intros I; apply Ny; right; exact I) E) as (-> & ->). auto.
Qed.
Lemma split_last : forall (c : Z) (x y r s : list Z), ~ In c r -> ~ In c s -> x ++ c :: r = y ++ c :: s -> x = y /\ r = s.
Proof.
  intros c x y r s Nr Ns E. apply (f_equal (@rev Z)) in E. rewrite !rev_app_distr in E. cbn [rev] in E. rewrite <- !app_assoc in E. cbn [app] in E.
  destruct (split_at c (rev r) (rev s) (rev x) (rev y)) as (E1 & E2); [rewrite <- in_rev; exact Nr|rewrite <- in_rev; exact Ns|exact E|].
  apply (f_equal (@rev Z)) in E1, E2. rewrite !rev_involutive in E1, E2. auto.
Qed.

Lemma label_fun : forall t u (l m x y : list Z), label t l -> label u m -> l ++ 32 :: x = m ++ 32 :: y -> t = u /\ x = y.
Proof.
  intros t u l m x y Lt Lu E. destruct Lt as [ | | | | | | | |t n Ht Nt]; destruct Lu as [ | | | | | | | |u m Hu Nu]; cbn in E; try discriminate E; try (injection E as ->; auto).
  injection E as E. rewrite <- !app_assoc in E. cbn [app] in E. destruct (split_at 41 n m (32 :: x) (32 :: y) (numeral_free _ _ 41 Nt ltac:(lia)) (numeral_free _ _ 41 Nu ltac:(lia)) E) as (-> & E').
  injection E' as ->. split; [|reflexivity]. exact (numeral_fun _ _ _ Nt Nu).
Qed.

Lemma unambiguous : forall ntop a b n m line, describes ntop a n line -> describes ntop b m line -> no_space (a_name a) -> no_space (a_name b) -> n = m /\ same_shown ntop a b.
Proof.
  intros ntop a b n m line (la & na & sa & La & Na & Da & Ea) (lb & nb & sb & Lb & Nb & Db & Eb) Sa Sb. rewrite Ea in Eb. clear Ea line. cbn [lit map list_ascii_of_string] in Eb.
  change (lit " ") with [32] in Eb. change (lit " for ") with (32 :: [102; 111; 114; 32]) in Eb. change (lit " seconds ") with (32 :: [115; 101; 99; 111; 110; 100; 115; 32]) in Eb. cbn [app] in Eb.
  destruct (label_fun _ _ _ _ _ _ La Lb Eb) as (T & E1). destruct (split_at _ _ _ _ _ Sa Sb E1) as (Nm & E2). injection E2 as E2.
  destruct (split_at 32 na nb _ _ (numeral_free _ _ 32 Na ltac:(lia)) (numeral_free _ _ 32 Nb ltac:(lia)) E2) as (-> & E3). injection E3 as E3. apply app_inj_tail in E3 as (Es & _).
  split; [exact (numeral_fun _ _ _ Na Nb)|]. split; [exact T|]. split; [exact Nm|]. subst sb.
  destruct Da as [Ta|Ta|p Ta Ra|p q Ta Ra Pa|p Ta Pa]; try rewrite Ta in T |- *.
  - inversion Db as [Tb Ev|Tb Ev|p Tb Rb Ev|p q Tb Rb Pb Ev|p Tb Pb Ev]; try congruence; try (exfalso; apply Tb; rewrite <- T; cbn; auto; fail).
    repeat split; try congruence; try (intros [K|K]; discriminate K).
  - inversion Db as [Tb Ev|Tb Ev|p Tb Rb Ev|p q Tb Rb Pb Ev|p Tb Pb Ev]; try congruence; try (exfalso; apply Tb; rewrite <- T; cbn; auto; fail).
    repeat split; try congruence; try (intros [K|K]; discriminate K).
  - inversion Db as [Tb Ev|Tb Ev|p' Tb Rb Ev|p' q Tb Rb Pb Ev|p' Tb Pb Ev]; try congruence; try (exfalso; apply Tb; rewrite <- T; cbn; auto; fail).
    repeat split; congruence.
  - inversion Db as [Tb Ev|Tb Ev|p' Tb Rb Ev|p' q' Tb Rb Pb Ev|p' Tb Pb Ev]; try congruence; try (exfalso; apply Tb; rewrite <- T; cbn; auto; fail).
    destruct (split_last 58 p' p q' q (numeral_free _ _ 58 Pb ltac:(lia)) (numeral_free _ _ 58 Pa ltac:(lia)) Ev) as (-> & ->).
    repeat split; try congruence. intros _. exact (numeral_fun _ _ _ Pa Pb).
  - repeat split; intros K; try (destruct K as [K|K]); exfalso; apply Ta; rewrite K; cbn; auto.
Qed.

Lemma as_int_small : forall v, - 2 ^ 31 <= v < 2 ^ 31 -> as_int v = v.
Proof.
  intros v B. unfold as_int. cbv zeta. destruct (Z_lt_le_dec v 0).
  - replace (v mod 2 ^ 32) with (v + 2 ^ 32) by (rewrite <- (Z.mod_small (v + 2 ^ 32) (2 ^ 32)) by lia; rewrite <- (Z_mod_plus_full v 1 (2 ^ 32)); f_equal; lia). destruct (v + 2 ^ 32 <? 2 ^ 31) eqn:E; lia.
  - rewrite Z.mod_small by lia. destruct (v <? 2 ^ 31) eqn:E; lia.
Qed.
Lemma type_label : forall t, 0 <= t < 65536 -> ~ In t [1; 28; 12; 33] -> label t (type2str t).
Proof.
  intros t B N. unfold type2str, QTYPE_A, QTYPE_NS, QTYPE_CNAME, QTYPE_PTR, QTYPE_TXT, QTYPE_AAAA, QTYPE_SRV, QTYPE_ANY.
  destruct (Z.eqb_spec t 1) as [->|N1]; [exfalso; apply N; cbn; auto|]. destruct (Z.eqb_spec t 2) as [->|N2]; [constructor|]. destruct (Z.eqb_spec t 5) as [->|N3]; [constructor|].
  destruct (Z.eqb_spec t 12) as [->|N4]; [exfalso; apply N; cbn; auto|]. destruct (Z.eqb_spec t 16) as [->|N5]; [constructor|]. destruct (Z.eqb_spec t 28) as [->|N6]; [exfalso; apply N; cbn; auto|].
  destruct (Z.eqb_spec t 33) as [->|N7]; [exfalso; apply N; cbn; auto 6|]. destruct (Z.eqb_spec t 255) as [->|N8]; [constructor|].
  assert (L : (length (fmt_d t) <= 9)%nat).
  { unfold fmt_d. replace (t <? 0) with false by lia. destruct (Z.eq_dec t 0) as [->|]; [cbn; lia|]. destruct (dec_loop_spec 9 t [] ltac:(change (10 ^ Z.of_nat 9) with 1000000000; lia) ltac:(lia)) as (ds & E & _ & _ & _ & L).
    assert (dec t = ds) as ->; [|exact L]. unfold dec. rewrite app_nil_r in E. rewrite <- E.
    assert (G : forall f g n acc, 0 <= n < 10 ^ Z.of_nat f -> (0 < f)%nat -> (f <= g)%nat -> dec_loop g n acc = dec_loop f n acc).
    { induction f as [|f IH]; intros g z acc Hn Hf Hg; [lia|]. destruct g as [|g]; [lia|]. cbn [dec_loop]. cbn zeta. destruct (Z.eqb_spec (z / 10) 0) as [Q|Q]; [reflexivity|]. destruct f as [|f]; [change (Z.of_nat 1) with 1 in Hn; lia|].
      apply IH; [|lia|lia]. replace (Z.of_nat (S (S f))) with (1 + Z.of_nat (S f)) in Hn by lia. rewrite Z.pow_add_r in Hn by lia. change (10 ^ 1) with 10 in Hn. lia. }
    apply G; [change (10 ^ Z.of_nat 9) with 1000000000; lia|lia|lia]. }
  unfold cut. rewrite firstn_all2; [|rewrite !app_length; change (length (lit "UNKNOWN (")) with 9%nat; change (length (lit ")")) with 1%nat; lia].
  apply label_other; [cbn; lia|apply fmt_numeral; lia].
Qed.

Lemma line_describes : forall ntop s k a time, 0 <= a_type a < 65536 -> 0 <= a_port a < 65536 -> zlen (match a_rdata a with Some l => l | None => [] end) < 2 ^ 31 ->
  (a_type a = 12 \/ a_type a = 33 -> a_rdname a <> None) -> - 2 ^ 31 <= a_ttl a - time < 2 ^ 31 ->
  exists p, ans ntop true s k a = Ok (s ++ [p], [], false) /\ describes ntop a (if a_ttl a =? 0 then 0 else a_ttl a - time) (text_of p (seconds (a_ttl a) time)).
Proof.
  intros ntop s k a time T P L R B. set (secs := if a_ttl a =? 0 then 0 else a_ttl a - time). assert (Es : seconds (a_ttl a) time = secs) by (unfold seconds, secs; destruct (a_ttl a =? 0); [reflexivity|apply as_int_small; exact B]).
  assert (Ns : numeral secs (fmt_d secs)) by (apply fmt_numeral; unfold secs; destruct (a_ttl a =? 0); lia). rewrite Es. unfold ans. cbn [negb].
  unfold QTYPE_A, QTYPE_AAAA, QTYPE_PTR, QTYPE_SRV.
  destruct (Z.eqb_spec (a_type a) 1) as [T1|T1]; [|destruct (Z.eqb_spec (a_type a) 28) as [T2|T2]; [|destruct (Z.eqb_spec (a_type a) 12) as [T3|T3]; [|destruct (Z.eqb_spec (a_type a) 33) as [T4|T4]]]].
  - eexists. split; [reflexivity|]. exists (lit "A"), (fmt_d secs). eexists. split; [rewrite T1; constructor|]. split; [exact Ns|]. split; [apply data_a; exact T1|]. unfold text_of. rewrite <- !app_assoc. reflexivity.
  - eexists. split; [reflexivity|]. exists (lit "AAAA"), (fmt_d secs). eexists. split; [rewrite T2; constructor|]. split; [exact Ns|]. split; [apply data_aaaa; exact T2|]. unfold text_of. rewrite <- !app_assoc. reflexivity.
  - destruct (a_rdname a) as [n|] eqn:En; [|exfalso; apply R; auto]. eexists. split; [reflexivity|]. exists (lit "PTR"), (fmt_d secs). eexists. split; [rewrite T3; constructor|]. split; [exact Ns|]. split; [eapply data_ptr; eassumption|]. unfold text_of. rewrite <- !app_assoc. reflexivity.
  - destruct (a_rdname a) as [n|] eqn:En; [|exfalso; apply R; auto]. eexists. split; [reflexivity|]. exists (lit "SRV"), (fmt_d secs). eexists. split; [rewrite T4; constructor|]. split; [exact Ns|]. split; [eapply data_srv; [exact T4|exact En|apply fmt_numeral; lia]|]. unfold text_of. rewrite <- !app_assoc. reflexivity.
  - eexists. split; [reflexivity|]. exists (type2str (a_type a)), (fmt_d secs). eexists. split; [apply type_label; [exact T|cbn; lia]|]. split; [exact Ns|]. split; [apply data_other; [cbn; lia|apply fmt_numeral; unfold zlen in *; lia]|]. unfold text_of. rewrite <- !app_assoc. reflexivity.
Qed.
