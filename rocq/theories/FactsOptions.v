(* Lemmas about the command line, for C103. *)
From Verif Require Import Base Lemmas Lib SpecLib FactsLib Log SpecLog FactsLog Options SpecOptions.

Lemma skip_blanks : forall blanks t, Forall (fun c => c = 32 \/ 9 <= c <= 13) blanks -> match t with c :: _ => is_space c = false | [] => True end -> skip_space (blanks ++ t) = t.
Proof.
  intros blanks t F T. induction F as [| c blanks C F IH]; cbn [app].
  - destruct t as [| c t]; [reflexivity |]. cbn [skip_space]. rewrite T. reflexivity.
  - cbn [skip_space]. replace (is_space c) with true by (unfold is_space; lia). exact IH.
Qed.
Lemma no_sign_match : forall (c : Z) (t : list Z), c <> 45 -> c <> 43 -> match c :: t with 45 :: u => (true, u) | 43 :: u => (false, u) | _ => (false, c :: t) end = (false, c :: t).
Proof. intros c t A B. destruct c as [| p | p]; try reflexivity. do 6 (destruct p as [p | p |]; try reflexivity; try lia). Qed.
Lemma strtol_number : forall text v rest, begins_with_number text v rest -> - 2 ^ 63 <= v < 2 ^ 63 -> strtol text = (v, rest).
Proof.
  intros text v rest (blanks & sg & s & ds & -> & Hb & Hs & [NE F] & R & ->) V. unfold strtol.
  assert (D : digits (ds ++ rest) 0 = (dec_value ds, rest)).
  { apply digits_value; [exact F |]. destruct rest as [| c rest]; [exact I |]. unfold is_digit. lia. }
  destruct ds as [| c ds]; [congruence |]. inversion F as [| ? ? C F']; subst. cbn [app] in *. pose proof (value_mono (c :: ds) 0 F) as M. fold (dec_value (c :: ds)) in M.
  rewrite skip_blanks; [| exact Hb | inversion Hs; subst; cbn [app]; unfold is_space; lia].
  inversion Hs; subst; cbn [app].
  - rewrite no_sign_match by lia. replace (is_digit c) with true by (unfold is_digit; lia). rewrite D. f_equal. unfold clamp. lia.
  - replace (is_digit c) with true by (unfold is_digit; lia). rewrite D. f_equal. unfold clamp. lia.
  - replace (is_digit c) with true by (unfold is_digit; lia). rewrite D. f_equal. unfold clamp. lia.
Qed.
Lemma atoi_number : forall text v rest, begins_with_number text v rest -> - 2 ^ 31 <= v < 2 ^ 31 -> atoi text = v.
Proof.
  intros text v rest H V. unfold atoi. rewrite (strtol_number text v rest H) by lia. cbn [fst]. unfold as_int.
  destruct (Z.leb_spec 0 v) as [K | K].
  - rewrite Z.mod_small by lia. replace (v <? 2 ^ 31) with true by lia. reflexivity.
  - assert (E : v mod 2 ^ 32 = v + 2 ^ 32) by (symmetry; apply Z.mod_unique with (-1); lia). rewrite E. replace (v + 2 ^ 32 <? 2 ^ 31) with false by lia. lia.
Qed.
Lemma atoi_none : forall text, no_number text -> atoi text = 0.
Proof.
  intros text (blanks & sg & s & rest & -> & Hb & Hs & R). unfold atoi, strtol.
  rewrite skip_blanks; [| exact Hb | inversion Hs; subst; cbn [app]; [destruct rest as [| c rest]; [exact I |]; destruct R as [R1 R2]; specialize (R2 eq_refl); unfold is_space; lia | unfold is_space; lia | unfold is_space; lia]].
  assert (K : forall r, match r with c :: _ => is_digit c = false | [] => True end -> forall neg, fst (match r with c :: _ => if is_digit c then let '(v, r0) := digits r 0 in (clamp (if neg : bool then - v else v), r0) else (0, blanks ++ sg ++ rest) | [] => (0, blanks ++ sg ++ rest) end) = 0).
  { intros r Hr neg. destruct r as [| c r]; [reflexivity |]. rewrite Hr. reflexivity. }
  assert (Q : match rest with c :: _ => is_digit c = false | [] => True end) by (destruct rest as [| c r]; [exact I | unfold is_digit; lia]).
  inversion Hs; subst; cbn [app] in *.
  - destruct rest as [| c rest]; [reflexivity |]. destruct R as [R1 R2]. specialize (R2 eq_refl). rewrite no_sign_match by lia. rewrite Q. reflexivity.
  - rewrite (K rest Q false). reflexivity.
  - rewrite (K rest Q true). reflexivity.
Qed.

(* A text with a number in it is no name of a level *)
Lemma word_letters : forall p c, In p prioritynames -> In c (map lower (fst p)) -> 97 <= c <= 122.
Proof.
  intros p c H. unfold prioritynames in H. cbn [In] in H.
  repeat (destruct H as [<- | H]; [cbn; intros K; lia |]). destruct H.
Qed.
Lemma no_word : forall text d, In d text -> 48 <= d <= 57 -> find (fun p => bytes_eqb (map lower (fst p)) (map lower text)) prioritynames = None.
Proof.
  intros text d Hd D. destruct (find _ prioritynames) as [p |] eqn:E; [| reflexivity]. apply find_some in E as [E1 E2]. apply bytes_eqb_eq in E2.
  assert (K : In (lower d) (map lower (fst p))) by (rewrite E2; now apply in_map). assert (L : lower d = d) by (unfold lower; replace ((65 <=? d) && (d <=? 90)) with false by lia; reflexivity).
  rewrite L in K. pose proof (word_letters p d E1 K). lia.
Qed.
Lemma level_text : forall old text v rest, begins_with_number text v rest -> - 2 ^ 31 <= v < 2 ^ 31 -> mdnsd_log_level old text = (v, if 0 <=? v then v else old).
Proof.
  intros old text v rest H V. unfold mdnsd_log_level. pose proof H as (blanks & sg & s & ds & -> & _ & _ & [NE F] & _ & _).
  destruct ds as [| d ds]; [congruence |]. inversion F as [| ? ? D _]; subst.
  rewrite (no_word (blanks ++ sg ++ (d :: ds) ++ rest) d) by (try exact D; apply in_or_app; right; apply in_or_app; right; now left).
  change (-1 =? -1) with true. cbv iota. rewrite (atoi_number _ v rest H V). reflexivity.
Qed.

Lemma last_none : forall (A B : Type) (f : A -> option B), last_of f [] None.
Proof. intros. left. split; [reflexivity | intros a []]. Qed.
Lemma last_snoc : forall (A B : Type) (f : A -> option B) l v a, last_of f l v -> last_of f (l ++ [a]) (match f a with Some b => Some b | None => v end).
Proof.
  intros A B f l v a H. destruct (f a) as [b |] eqn:E.
  - right. exists l, a, [], b. repeat split; auto. intros a' [].
  - destruct H as [[-> H] | (pre & x & post & b & -> & H1 & -> & H2)].
    + left. split; [reflexivity |]. intros a' K. apply in_app_iff in K as [K | [<- | []]]; auto.
    + right. exists pre, x, (post ++ [a]), b. rewrite <- app_assoc. repeat split; auto. intros a' K. apply in_app_iff in K as [K | [<- | []]]; auto.
Qed.

Lemma take_spec : forall c o, (accepted o -> exists c', take c o = Going c') /\ (~ accepted o -> take c o = Exits (refusal o)) /\ (forall c', take c o = Going c' -> accepted o).
Proof.
  intros c o. destruct o as [s | | s | s | | | s | |]; cbn [take accepted refusal]; try (split; [eauto | split; [tauto | intros; exact I]]); try (split; [tauto | split; [reflexivity | discriminate]]).
  - unfold log_level. pose proof (log_value (l_level (c_log c)) 5 s) as E. destruct (mdnsd_log_level (l_level (c_log c)) s) as [v n]. cbn [fst] in E. rewrite <- E.
    destruct (v =? -1) eqn:K; (split; [| split]); intros; try lia; eauto; discriminate.
  - destruct (_ || _) eqn:K; (split; [| split]); intros; try lia; eauto; discriminate.
Qed.

Definition conf_ok (os : list given) (c : config) : Prop :=
  last_of host_of os (c_host c) /\ last_of iface_of os (c_iface c) /\ c_background c = (count_n os =? 0)%nat /\ c_logging c = 1 - Z.of_nat (count_n os) + Z.of_nat (count_s os) /\
  (exists v, last_of ttl_of os v /\ c_ttl c = match v with Some t => t | None => 255 end) /\ level_holds (levels_of os) (l_level (c_log c)) /\ l_syslog (c_log c) = false /\ 1 <= c_ttl c <= 255.

Lemma count_n_snoc : forall os o, count_n (os ++ [o]) = (count_n os + match o with GForeground => 1 | _ => 0 end)%nat.
Proof. intros. unfold count_n. rewrite filter_app, app_length. destruct o; reflexivity. Qed.
Lemma count_s_snoc : forall os o, count_s (os ++ [o]) = (count_s os + match o with GSyslog => 1 | _ => 0 end)%nat.
Proof. intros. unfold count_s. rewrite filter_app, app_length. destruct o; reflexivity. Qed.

Lemma take_ok : forall os c o c', conf_ok os c -> take c o = Going c' -> conf_ok (os ++ [o]) c'.
Proof.
  intros os c o c' (A & B & C & D & (v & E1 & E2) & F & G & T) H. unfold conf_ok. rewrite count_n_snoc, count_s_snoc. unfold levels_of. rewrite flat_map_app. cbn [flat_map]. rewrite app_nil_r.
  pose proof (last_snoc _ _ host_of os _ o A) as A'. pose proof (last_snoc _ _ iface_of os _ o B) as B'. pose proof (last_snoc _ _ ttl_of os _ o E1) as E'.
  destruct o as [s | | s | s | | | s | |]; cbn [take host_of iface_of ttl_of] in *; try discriminate; rewrite ?Nat.add_0_r, ?app_nil_r;
    try (injection H as <-; cbn [c_host c_iface c_background c_logging c_ttl c_log] in *; repeat split; eauto; try lia; fail).
  - unfold log_level in H. destruct (mdnsd_log_level (l_level (c_log c)) s) as [l n] eqn:El. destruct (l =? -1); [discriminate |]. injection H as <-. cbn [c_host c_iface c_background c_logging c_ttl c_log l_level l_syslog].
    split; [exact A' |]. split; [exact B' |]. split; [exact C |]. split; [exact D |]. split; [eauto |]. split; [| split; [exact G | exact T]].
    pose proof (log_value 5 (l_level (c_log c)) s) as Ev. rewrite El in Ev. cbn [fst] in Ev. rewrite Ev. pose proof (log_new_level (l_level (c_log c)) s) as En. rewrite El in En. cbn [snd] in En. rewrite Ev in En. rewrite En.
    destruct (0 <=? l) eqn:K; [apply level_set; lia | apply level_kept; [lia | exact F]].
  - destruct (_ || _) eqn:K; [discriminate |]. injection H as <-. cbn [c_host c_iface c_background c_logging c_ttl c_log]. split; [exact A' |]. split; [exact B' |]. split; [exact C |]. split; [exact D |]. split; [eauto |]. split; [exact F |]. split; [exact G | lia].
Qed.
Lemma take_all_ok : forall os pre c c', conf_ok pre c -> take_all c os = Going c' -> conf_ok (pre ++ os) c' /\ Forall accepted os.
Proof.
  induction os as [| o os IH]; intros pre c c' H E; cbn [take_all] in E.
  - injection E as <-. rewrite app_nil_r. split; [exact H | constructor].
  - destruct (take c o) as [c1 | code] eqn:K; [| discriminate]. destruct (IH (pre ++ [o]) c1 c' (take_ok _ _ _ _ H K) E) as [P Q].
    rewrite <- app_assoc in P. split; [exact P |]. constructor; [apply (proj2 (proj2 (take_spec c o)) c1 K) | exact Q].
Qed.
Lemma conf_ok0 : conf_ok [] config0.
Proof. unfold conf_ok, config0. cbn. repeat split; try (apply last_none); try lia; [exists None; split; [apply last_none | reflexivity] | constructor]. Qed.

Lemma take_all_iff : forall os c, (Forall accepted os -> exists c', take_all c os = Going c') /\
  forall code, take_all c os = Exits code <-> exists pre o post, os = pre ++ o :: post /\ Forall accepted pre /\ ~ accepted o /\ code = refusal o.
Proof.
  induction os as [| o os IH]; intros c; cbn [take_all].
  - split; [eauto |]. intros code. split; [discriminate |]. intros (pre & o & post & E & _). destruct pre; discriminate.
  - destruct (take_spec c o) as (A & B & C). destruct (take c o) as [c1 | code1] eqn:K.
    + specialize (C c1 eq_refl). destruct (IH c1) as [I1 I2]. split; [intros F; inversion F; subst; auto |]. intros code. rewrite I2. split.
      * intros (pre & o' & post & -> & P & Q & R). exists (o :: pre), o', post. repeat split; auto.
      * intros (pre & o' & post & E & P & Q & R). destruct pre as [| x pre]; cbn [app] in E; injection E as -> ->; [contradiction |]. inversion P; subst. exists pre, o', post. auto.
    + assert (N : ~ accepted o) by (intros H; destruct (A H) as (c' & E); discriminate). specialize (B N). injection B as ->.
      split; [intros F; inversion F; subst; contradiction |]. intros code. split.
      * intros E. injection E as <-. exists [], o, os. repeat split; auto.
      * intros (pre & o' & post & E & P & Q & R). destruct pre as [| x pre]; cbn [app] in E; injection E as -> ->; [now rewrite R |]. inversion P; subst. contradiction.
Qed.

Lemma options_started : forall os ops c, read_options os ops = Going c ->
  Forall accepted os /\ last_of host_of os (c_host c) /\ last_of iface_of os (c_iface c) /\ c_path c = hd ETC ops /\ c_background c = (count_n os =? 0)%nat /\
  (exists v, last_of ttl_of os v /\ c_ttl c = match v with Some t => t | None => 255 end) /\ level_holds (levels_of os) (l_level (c_log c)) /\
  (l_syslog (c_log c) = true <-> (count_n os < 1 + count_s os)%nat) /\ 1 <= c_ttl c <= 255.
Proof.
  intros os ops c H. unfold read_options in H. destruct (take_all config0 os) as [c0 |] eqn:E; [| discriminate]. injection H as <-.
  destruct (take_all_ok os [] config0 c0 conf_ok0 E) as [(A & B & C & D & F & G & L & T) Q]. cbn [app] in *. cbn [c_host c_iface c_background c_logging c_ttl c_log c_path].
  split; [exact Q |]. split; [exact A |]. split; [exact B |]. split; [destruct ops; reflexivity |]. split; [exact C |]. split; [exact F |]. split; [| split; [| exact T]].
  - destruct (0 <? c_logging c0); [unfold log_open; cbn [fst l_level] |]; exact G.
  - destruct (0 <? c_logging c0) eqn:K; [unfold log_open; cbn [fst l_syslog]; split; [lia | reflexivity] |]. rewrite L. split; [discriminate | lia].
Qed.
Lemma options_iff : forall os ops code, read_options os ops = Exits code <-> exists pre o post, os = pre ++ o :: post /\ Forall accepted pre /\ ~ accepted o /\ code = refusal o.
Proof.
  intros os ops code. rewrite <- (proj2 (take_all_iff os config0)). unfold read_options. destruct (take_all config0 os); split; intros H; try discriminate; congruence.
Qed.

Lemma strrchr_spec : forall s c, match strrchr s c with Some r => exists pre t, s = pre ++ r /\ r = c :: t /\ ~ In c t | None => ~ In c s end.
Proof.
  induction s as [| x s IH]; intros c; cbn [strrchr]; [intros [] |]. specialize (IH c). destruct (strrchr s c) as [r |].
  - destruct IH as (pre & t & -> & -> & N). exists (x :: pre), t. auto.
  - destruct (x =? c) eqn:E.
    + apply Z.eqb_eq in E. subst. exists [], s. auto.
    + intros [K | K]; [lia | contradiction].
Qed.
Lemma progname_spec : forall a, ~ In 47 (progname a) /\ (progname a = a \/ exists dir, a = dir ++ [47] ++ progname a).
Proof.
  intros a. unfold progname. pose proof (strrchr_spec a 47) as H. destruct (strrchr a 47) as [r |]; [| auto].
  destruct H as (pre & t & E & -> & N). cbn [tl]. split; [exact N |]. right. exists pre. exact E.
Qed.

Lemma ttl_text : forall ds rest, is_dec ds -> 1 <= dec_value ds <= 255 -> match rest with c :: _ => ~ 48 <= c <= 57 | [] => True end ->
  exists c, read_options [GTtl (ds ++ rest)] [] = Going c /\ c_ttl c = dec_value ds.
Proof.
  intros ds rest D V R. assert (E : atoi (ds ++ rest) = dec_value ds).
  { apply (atoi_number _ _ rest); [| lia]. exists [], [], 1, ds. repeat split; try exact R; try apply D; [constructor | constructor | lia]. }
  unfold read_options. cbn [take_all take]. rewrite E. destruct (_ || _) eqn:K; [lia |]. eexists. split; reflexivity.
Qed.
Lemma negative_level : forall text v rest, begins_with_number text v rest -> - 2 ^ 31 <= v < -1 ->
  exists c, read_options [GLevel text] [] = Going c /\ l_level (c_log c) = 5.
Proof.
  intros text v rest H V. unfold read_options. cbn [take_all take]. unfold log_level. change (l_level (c_log config0)) with 5.
  rewrite (level_text 5 text v rest H) by lia. replace (v =? -1) with false by lia. replace (0 <=? v) with false by lia. eexists. split; reflexivity.
Qed.
