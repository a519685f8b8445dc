(* Supporting proofs for PropStep.v. *)
From Verif Require Import Base Lemmas SpecDns Hash HashProofs Wire WireSafe Rec Qry Out In Api RecInv RecSafe DaemonInv ParseWf SpecDaemon FactsCalls FactsOut FactsDrain Step SpecStep.

(* ------------------------------------------------------------------ *)
(* Parsing does not depend on bytes it does not read *)
Definition part (b b' : buffer) : Prop := b_size b <= b_size b' /\ forall i, 0 <= i < b_size b -> b_at b' i = b_at b i.
Definition keeps {A : Type} (x y : res A) : Prop := match x with UB (OobRead _) => True | _ => y = x end.

Lemma keeps_refl : forall A (x : res A), keeps x x.
Proof. intros A x. unfold keeps. destruct x as [a| |[]|]; auto. Qed.
Lemma keeps_bind : forall A B (x y : res A) (f g : A -> res B), keeps x y -> (forall a, keeps (f a) (g a)) -> keeps (bind x f) (bind y g).
Proof.
  intros A B x y f g H K. unfold keeps in H. destruct x as [a| |[]|]; try (subst y; cbn [bind]; first [apply K|reflexivity]). exact I.
Qed.
Lemma keeps_if : forall A (c : bool) (x y x' y' : res A), keeps x y -> keeps x' y' -> keeps (if c then x else x') (if c then y else y').
Proof. intros A [] x y x' y' H K; assumption. Qed.

Local Opaque PTR_FUEL LABEL_FUEL.
Section Part.
Variables (b b' : buffer).
Hypothesis P : part b b'.

Lemma rd_keeps : forall o, keeps (rd b o) (rd b' o).
Proof.
  intros o. destruct P as [P1 P2]. unfold rd. destruct ((0 <=? o) && (o <? b_size b)) eqn:E; [|exact I]. cbn [keeps].
  replace ((0 <=? o) && (o <? b_size b')) with true by lia. rewrite P2 by lia. reflexivity.
Qed.
Lemma rdn_keeps : forall o n, keeps (rdn b o n) (rdn b' o n).
Proof.
  intros o n. destruct P as [P1 P2]. unfold rdn. destruct (n <=? 0) eqn:N; [reflexivity|]. destruct ((0 <=? o) && (o + n <=? b_size b)) eqn:E; [|exact I]. cbn [keeps].
  replace ((0 <=? o) && (o + n <=? b_size b')) with true by lia. f_equal. apply map_ext_in. intros i Hi. apply P2. apply zseq_in in Hi. lia.
Qed.
Ltac kp := first [apply keeps_refl | apply rd_keeps | apply rdn_keeps | (apply keeps_bind; [|intros; try match goal with x : _ * _ |- _ => destruct x end]) | apply keeps_if].
Lemma net2short_keeps : forall p, keeps (net2short b p) (net2short b' p).
Proof. intros p. unfold net2short. repeat kp. Qed.
Lemma net2long_keeps : forall p, keeps (net2long b p) (net2long b' p).
Proof. intros p. unfold net2long. repeat kp. Qed.
Lemma ldecomp_keeps : forall p, keeps (ldecomp b p) (ldecomp b' p).
Proof. intros p. unfold ldecomp. repeat kp. Qed.
Lemma skip_ptrs_keeps : forall f len label prev, keeps (skip_ptrs f b len label prev) (skip_ptrs f b' len label prev).
Proof.
  induction f as [|f IH]; intros len label prev; cbn [skip_ptrs]; [apply keeps_refl|].
  apply keeps_bind; [apply rd_keeps|]. intros c. apply keeps_if; [apply keeps_refl|]. apply keeps_bind; [apply ldecomp_keeps|]. intros off. apply keeps_if; [apply keeps_refl|].
  apply keeps_bind; [apply rd_keeps|]. intros c'. apply keeps_if; [apply keeps_refl|apply IH].
Qed.
Lemma label_copy_keeps : forall f psz len label acc, keeps (label_copy f b psz len label acc) (label_copy f b' psz len label acc).
Proof.
  induction f as [|f IH]; intros psz len label acc; cbn [label_copy]; [apply keeps_refl|].
  apply keeps_bind; [apply rd_keeps|]. intros c. apply keeps_if; [apply keeps_refl|]. apply keeps_bind; [apply skip_ptrs_keeps|]. intros l'. apply keeps_bind; [apply rd_keeps|]. intros n.
  apply keeps_if; [apply keeps_refl|]. apply keeps_bind; [apply rdn_keeps|]. intros dt. apply keeps_bind; [apply keeps_refl|]. intros _. apply IH.
Qed.
Lemma label_adv_keeps : forall f label, keeps (label_adv f b label) (label_adv f b' label).
Proof.
  induction f as [|f IH]; intros label; cbn [label_adv]; [apply keeps_refl|].
  apply keeps_bind; [apply rd_keeps|]. intros c. apply keeps_if; [apply keeps_refl|]. apply keeps_if; [apply keeps_refl|apply IH].
Qed.
Lemma label_parse_keeps : forall psz s slot p, keeps (label_parse b psz s slot p) (label_parse b' psz s slot p).
Proof.
  intros psz s slot p. unfold label_parse. apply keeps_if; [apply keeps_refl|]. apply keeps_bind; [apply keeps_refl|]. intros _. apply keeps_bind; [apply label_copy_keeps|]. intros name.
  apply keeps_bind; [apply label_adv_keeps|]. intros e. apply keeps_bind; [apply keeps_refl|]. intros _. apply keeps_refl.
Qed.
Local Opaque label_parse net2short net2long rdn wr.
Ltac kq := first [apply rdn_keeps | apply net2short_keeps | apply net2long_keeps | apply label_parse_keeps | apply keeps_refl].
Lemma rr_parse1_keeps : forall psz s slot p, keeps (rr_parse1 b psz s slot p) (rr_parse1 b' psz s slot p).
Proof.
  intros psz s slot p. unfold rr_parse1. apply keeps_bind; [kq|]. intros [[s1 p1] name]. apply keeps_bind; [kq|]. intros _.
  apply keeps_bind; [kq|]. intros [ty p2]. apply keeps_bind; [kq|]. intros [cl p3]. apply keeps_bind; [kq|]. intros [ttl p4]. apply keeps_bind; [kq|]. intros [ln p5].
  apply keeps_if; [kq|]. cbv zeta. apply keeps_bind.
  { apply keeps_if; [kq|]. apply keeps_bind; [kq|]. intros _. apply keeps_bind; [kq|]. intros dt. kq. }
  intros [[s2 ln2] dt]. apply keeps_if.
  { apply keeps_if; [kq|]. apply keeps_bind; [kq|]. intros _. apply keeps_bind; [kq|]. intros i. kq. }
  apply keeps_if.
  { apply keeps_if; [kq|]. apply keeps_bind; [kq|]. intros _. apply keeps_bind; [kq|]. intros i. kq. }
  apply keeps_if.
  { apply keeps_bind; [kq|]. intros [[s3 p6] tg]. kq. }
  apply keeps_if; [|kq].
  apply keeps_bind; [kq|]. intros [pr p6]. apply keeps_bind; [kq|]. intros [we p7]. apply keeps_bind; [kq|]. intros [po p8]. apply keeps_bind; [kq|]. intros [[s3 p9] tg]. kq.
Qed.
Lemma rr_parse_keeps : forall n psz s slot p, keeps (rr_parse b psz s n slot p) (rr_parse b' psz s n slot p).
Proof.
  induction n as [|n IH]; intros psz s slot p; cbn [rr_parse]; [kq|]. apply keeps_bind; [apply rr_parse1_keeps|]. intros [[s1 p1] r]. apply keeps_bind; [apply IH|]. intros [[s2 p2] rs]. kq.
Qed.
Lemma qd_parse_keeps : forall n psz s slot p, keeps (qd_parse b psz s n slot p) (qd_parse b' psz s n slot p).
Proof.
  induction n as [|n IH]; intros psz s slot p; cbn [qd_parse]; [kq|]. apply keeps_bind; [kq|]. intros [[s1 p1] nm]. apply keeps_bind; [kq|]. intros _. apply keeps_bind; [kq|]. intros [ty p2]. apply keeps_bind; [kq|]. intros [cl p3].
  apply keeps_bind; [apply IH|]. intros [[s2 p4] qs]. kq.
Qed.
Lemma message_parse_keeps : forall psz, keeps (message_parse b psz) (message_parse b' psz).
Proof.
  intros psz. unfold message_parse. apply keeps_bind; [kq|]. intros [id p]. apply keeps_bind; [apply rd_keeps|]. intros c0. apply keeps_bind; [apply rd_keeps|]. intros c1. cbv zeta.
  apply keeps_bind; [kq|]. intros [qd p1]. apply keeps_if; [kq|]. apply keeps_bind; [kq|]. intros [an p2]. apply keeps_if; [kq|]. apply keeps_bind; [kq|]. intros [ns p3]. apply keeps_if; [kq|]. apply keeps_bind; [kq|]. intros [ar p4]. apply keeps_if; [kq|].
  destruct (my _ _) as [s1 a1]. apply keeps_bind; [apply qd_parse_keeps|]. intros [[s2 p5] q]. destruct (my _ _) as [s3 a3]. destruct (my _ _) as [s4 a4]. destruct (my _ _) as [s5 a5].
  apply keeps_bind; [apply rr_parse_keeps|]. intros [[s6 p6] l1]. apply keeps_bind; [apply rr_parse_keeps|]. intros [[s7 p7] l2]. apply keeps_bind; [apply rr_parse_keeps|]. intros [[s8 p8] l3]. kq.
Qed.
End Part.

Lemma fill_parse : forall buf b, self_contained b -> message_parse (mkbuffer RECV_SIZE (fill buf b)) MSG_BLOCK = message_parse (mkbuffer (zlen b) (zget b)) MSG_BLOCK.
Proof.
  intros buf b [L N]. assert (P : part (mkbuffer (zlen b) (zget b)) (mkbuffer RECV_SIZE (fill buf b))).
  { split; cbn [b_size b_at]; [unfold RECV_SIZE; lia|]. intros i Hi. unfold fill. replace ((0 <=? i) && (i <? Z.min (zlen b) MAX_PACKET_LEN)) with true by lia. reflexivity. }
  pose proof (message_parse_keeps _ _ P MSG_BLOCK) as K. unfold keeps in K. destruct (message_parse (mkbuffer (zlen b) (zget b)) MSG_BLOCK) as [a| |[]|]; try exact K. destruct (N off). reflexivity.
Qed.

Lemma receive_split : forall l1 l2 d buf1 buf2, brings self_contained l1 -> brings self_contained l2 ->
  receive d buf1 (l1 ++ l2) = bind (receive d buf2 l1) (fun x => receive (fst x) (fun _ => 0) l2).
Proof.
  assert (Anybuf : forall l d buf1 buf2, brings self_contained l -> receive d buf1 l = receive d buf2 l).
  { induction l as [|x l IH]; intros d buf1 buf2 B; [reflexivity|]. destruct (B x (or_introl eq_refl)) as (e & b & from & -> & S). cbn [receive]. pose proof S as [L _]. replace (zlen b =? 0) with false by lia. cbv zeta.
    rewrite !(fill_parse _ b S). assert (B' : brings self_contained l) by (intros y Y; apply B; right; exact Y). destruct (message_parse _ _) as [[[m s] p]| | |]; try reflexivity; [|apply IH; exact B'].
    destruct (mdnsd_in d e m from) as [[d' n]| | |]; cbn [bind]; try reflexivity. apply IH. exact B'. }
  induction l1 as [|x l IH]; intros l2 d buf1 buf2 B1 B2.
  - cbn [app receive bind fst]. apply Anybuf. exact B2.
  - destruct (B1 x (or_introl eq_refl)) as (e & b & from & -> & S). cbn [app receive]. pose proof S as [L _]. replace (zlen b =? 0) with false by lia. cbv zeta.
    rewrite !(fill_parse _ b S). assert (B' : brings self_contained l) by (intros y Y; apply B1; right; exact Y). destruct (message_parse _ _) as [[[m s] p]| | |]; try reflexivity; [|apply IH; assumption].
    destruct (mdnsd_in d e m from) as [[d' n]| | |]; cbn [bind]; try reflexivity. apply IH; assumption.
Qed.

Lemma receive_split' : forall d l1 l2, brings self_contained (l1 ++ l2) -> process_in d (l1 ++ l2) = bind (process_in d l1) (fun x => process_in (fst x) l2).
Proof. intros d l1 l2 B. apply receive_split; intros x I; apply B; apply in_or_app; auto. Qed.

Lemma receive_own : forall d e b from, self_contained b -> process_in d [(e, Datagram b from)] = bind (handle d e b from) (fun d => Ok (d, 0)).
Proof.
  intros d e b from S. unfold process_in, handle. cbn [receive]. pose proof S as [L _]. replace (zlen b =? 0) with false by lia. cbv zeta. rewrite (fill_parse _ b S).
  destruct (message_parse _ _) as [[[m s] p]| | |]; try reflexivity. destruct (mdnsd_in d e m from) as [[d' n]| | |]; reflexivity.
Qed.

(* ------------------------------------------------------------------ *)
(* mdnsd_step as a history of calls *)
Lemma history_app : forall d0 l1 d1 l2 d2, history d0 l1 d1 -> history d1 l2 d2 -> history d0 (l1 ++ l2) d2.
Proof.
  intros d0 l1 d1 l2 d2 H1 H2. induction H2 as [|l d e o x d' H2 IH L E]; [rewrite app_nil_r; exact H1|]. rewrite app_assoc. apply history_call; assumption.
Qed.
Lemma history_one : forall d e o x d', legal d e o -> step d e o = Ok (d', x) -> history d [mkevent d e o x d'] d'.
Proof. intros d e o x d' L E. apply (history_call d [] d e o x d' (history_start d) L E). Qed.

Lemma fill_bytes : forall n n' buf b, bytebuf (mkbuffer n buf) -> bytes b -> bytebuf (mkbuffer n' (fill buf b)).
Proof.
  intros n n' buf b B1 B2 i. cbn [b_at]. unfold fill. destruct (_ && _); [|destruct (_ =? _); [split; lia|apply (B1 i)]]. unfold zget. destruct (_ && _); [|split; lia].
  destruct (nth_in_or_default (Z.to_nat i) b 0) as [I| ->]; [|split; lia]. unfold bytes in B2. rewrite Forall_forall in B2. apply B2. exact I.
Qed.


Lemma packets_app : forall l1 l2, packets (l1 ++ l2) = packets l1 ++ packets l2.
Proof. induction l1 as [|ev l1 IH]; intros l2; [reflexivity|]. cbn [app packets]. destruct (ev_result ev) as [|r|m n|n|t]; try apply IH. destruct (n =? 0); [apply IH|]. cbn [app]. rewrite IH. reflexivity. Qed.
Lemma asleep_app : forall l1 l2, asleep l1 = None -> asleep (l1 ++ l2) = asleep l2.
Proof. induction l1 as [|ev l1 IH]; intros l2 E; [reflexivity|]. cbn [app asleep] in *. destruct (ev_result ev); try discriminate; apply IH; exact E. Qed.

Lemma does_none : forall d, does d d [] [] None.
Proof. intros d. split; [constructor|]. split; [intros ev []|]. split; reflexivity. Qed.
Lemma does_app : forall d d1 d2 h1 h2 ps1 ps2 t, does d d1 h1 ps1 None -> does d1 d2 h2 ps2 t -> does d d2 (h1 ++ h2) (ps1 ++ ps2) t.
Proof.
  intros d d1 d2 h1 h2 ps1 ps2 t (A1 & A2 & A3 & A4) (B1 & B2 & B3 & B4). split; [eapply history_app; eassumption|]. split; [intros ev I; apply in_app_or in I as [I|I]; auto|].
  split; [rewrite packets_app; congruence|]. rewrite asleep_app by exact A4. exact B4.
Qed.
Lemma does_reach : forall d d' h ps t, reach d -> does d d' h ps t -> reach d'.
Proof. intros d d' h ps t K (H & _). exact (history_reach _ _ _ K H). Qed.

Lemma in_does : forall d e m from, reach d -> 0 <= fst (e_now e) -> wf_message m -> exists d' n, mdnsd_in d e m from = Ok (d', n) /\ does d d' [mkevent d e (OIn m from) (RInt n) d'] [] None.
Proof.
  intros d e m from K T W. assert (L : legal d e (OIn m from)) by (split; assumption). destruct (reach_ok d e _ K L) as (d' & x & E). pose proof E as E'. cbn [step] in E'. apply bind_ok in E' as ([d1 n] & E1 & E2). injection E2 as <- <-.
  exists d1, n. split; [exact E1|]. split; [apply history_one; assumption|]. split; [intros ev [<-|[]]; exact I|]. split; reflexivity.
Qed.

Lemma receive_runs : forall l d buf, reach d -> bytebuf (mkbuffer RECV_SIZE buf) -> reading l ->
  match receive d buf l with
  | Ok (d', _) => exists h, does d d' h [] None
  | UB (OobRead _) => ~ brings self_contained l
  | _ => False
  end.
Proof.
  induction l as [|[e x] l IH]; intros d buf K Hb Rl; cbn [receive]; [exists []; apply does_none|]. destruct x as [b from|]; [|exists []; apply does_none].
  destruct (zlen b =? 0) eqn:Z0; [exists []; apply does_none|]. cbv zeta. destruct (Rl e _ (or_introl eq_refl)) as [T Bb]. cbn in Bb. assert (Rl' : reading l) by (intros e' y I; apply Rl; right; exact I).
  assert (Hb' : bytebuf (mkbuffer RECV_SIZE (fill buf b))) by (eapply fill_bytes; eassumption).
  pose proof (WireFacts.message_parse_any (mkbuffer RECV_SIZE (fill buf b)) MSG_BLOCK Hb' ltac:(unfold MSG_BLOCK; lia)) as A.
  assert (Br : brings self_contained ((e, Datagram b from) :: l) -> self_contained b /\ brings self_contained l).
  { intros B. split; [destruct (B _ (or_introl eq_refl)) as (e' & b' & f' & Eq & S); congruence|intros y I; apply B; right; exact I]. }
  destruct (message_parse _ _) as [[[m s] p]| |u|] eqn:Ep.
  - destruct (in_does d e m from K T (message_parse_wf _ _ _ _ _ Hb' Ep)) as (d' & n & E & D). rewrite E. cbn [bind]. specialize (IH d' (fill buf b) (does_reach _ _ _ _ _ K D) Hb' Rl').
    destruct (receive d' (fill buf b) l) as [[d2 rc]| |[]|]; try contradiction; [|intros B; apply IH; apply Br; exact B]. destruct IH as (h & D2). eexists. apply (does_app _ _ _ _ _ [] []) with (1 := D) (2 := D2).
  - specialize (IH d (fill buf b) K Hb' Rl'). destruct (receive d (fill buf b) l) as [[d2 rc]| |[]|]; try contradiction; [exact IH|intros B; apply IH; apply Br; exact B].
  - destruct u as [o|o| |]; try contradiction. intros B. destruct (Br B) as [S _]. rewrite (fill_parse buf b S) in Ep. destruct S as [_ S]. exact (S o Ep).
  - exact A.
Qed.


Lemma out_step : forall d e, reach d -> plain e -> exists d' m n, mdnsd_out d e = Ok (d', m, n) /\ legal d e OOut /\ step d e OOut = Ok (d', RMsg m n) /\ does d d' [mkevent d e OOut (RMsg m n) d'] (if n =? 0 then [] else [packet_of m]) None.
Proof.
  intros d e K [T C]. assert (L : legal d e OOut) by (split; [exact T|left; exact C]). destruct (reach_ok d e _ K L) as (d' & x & E). pose proof E as E'. cbn [step] in E'. apply bind_ok in E' as ([[d1 m] n] & E1 & E2). injection E2 as <- <-.
  exists d1, m, n. split; [exact E1|]. split; [exact L|]. split; [exact E|]. split; [apply history_one; assumption|]. split; [intros ev [<-|[]]; exact I|]. split; [cbn [packets ev_result]; destruct (n =? 0); reflexivity|reflexivity].
Qed.

Lemma send_runs : forall l d, reach d -> writing l ->
  match process_out d l with
  | Ok (d', ps, _) => exists h, does d d' h ps None
  | UB (OobWrite _) => exists d' h ps, does d d' h ps None /\ overflows h
  | Hang => exists d' h ps, does d d' h ps None /\ length h = length l /\ forall i, (i < length l)%nat -> exists x m n, nth_error h i = Some x /\ ev_call x = OOut /\ ev_result x = RMsg m n /\ n <> 0 /\ option_map fst (nth_error l i) = Some (ev_env x)
  | _ => False
  end.
Proof.
  induction l as [|[e sent] l IH]; intros d K Wl; cbn [process_out].
  - exists d, [], []. split; [apply does_none|]. split; [reflexivity|]. intros i Hi. cbn [length] in Hi. lia.
  - destruct (out_step d e K (Wl e sent (or_introl eq_refl))) as (d' & m & n & E & L & Es & D). rewrite E. cbn [bind]. destruct (n =? 0) eqn:N0; [eexists; exact D|].
    destruct (e_ovf (encode (o_calls m))) eqn:Ov.
    { exists d'. eexists. eexists. split; [exact D|]. eexists. exists m, n. split; [left; reflexivity|]. split; [reflexivity|exact Ov]. }
    destruct sent; [|eexists; exact D]. assert (Wl' : writing l) by (intros e' s' I; apply (Wl e' s'); right; exact I). specialize (IH d' (does_reach _ _ _ _ _ K D) Wl').
    destruct (process_out d' l) as [[[d2 ps] rc]| |[]|]; cbn [bind]; try contradiction.
    + destruct IH as (h & D2). eexists. exact (does_app _ _ _ _ _ _ _ _ D D2).
    + destruct IH as (d2 & h & ps & D2 & Ovh). exists d2. eexists. eexists. split; [exact (does_app _ _ _ _ _ _ _ _ D D2)|]. destruct Ovh as (ev & m' & n' & I & Q). exists ev, m', n'. split; [right; exact I|exact Q].
    + destruct IH as (d2 & h & ps & D2 & Len & Al). exists d2. eexists. eexists. split; [exact (does_app _ _ _ _ _ _ _ _ D D2)|]. split; [cbn [app length]; rewrite Len; reflexivity|].
      intros [|i] Hi; [eexists; exists m, n; cbn [app nth_error]; split; [reflexivity|]; split; [reflexivity|]; split; [reflexivity|]; split; [lia|reflexivity]|].
      destruct (Al i ltac:(cbn [length] in Hi; lia)) as (x & mm & nn & A1 & A2). exists x, mm, nn. split; [exact A1|exact A2].
Qed.

(* The end of a step *)
Lemma end_does : forall d e, 0 <= fst (e_now e) -> does d (with_disco d false) [mkevent d e OEndStep RUnit (with_disco d false)] [] None.
Proof. intros d e T. split; [apply history_one; [split; [exact T|exact I]|reflexivity]|]. split; [intros ev [<-|[]]; exact I|]. split; reflexivity. Qed.

Lemma sleep_does : forall d e, reach d -> 0 <= fst (e_now e) -> exists d' t, mdnsd_sleep d e = Ok (d', t) /\ does d d' [mkevent d e OSleep (RTime t) d'] [] (Some t).
Proof.
  intros d e K T. assert (L : legal d e OSleep) by (split; [exact T|exact I]). destruct (reach_ok d e _ K L) as (d' & x & E). pose proof E as E'. cbn [step] in E'. apply bind_ok in E' as ([d1 t] & E1 & E2). injection E2 as <- <-.
  exists d1, t. split; [exact E1|]. split; [apply history_one; assumption|]. split; [intros ev [<-|[]]; exact I|]. split; reflexivity.
Qed.

Lemma step_runs : forall d e inp out wt li lo, reach d -> 0 <= fst (e_now e) -> reading li -> writing lo ->
  match mdnsd_step d e inp out wt li lo with
  | Ok (d', ps, t, rc) => exists h, does d d' h ps t
  | UB (OobRead _) => ~ brings self_contained li
  | UB (OobWrite _) => exists d' h ps, does d d' h ps None /\ overflows h
  | Hang => exists d0 h0 ps0, does d d0 h0 ps0 None /\ process_out d0 lo = Hang
  | _ => False
  end.
Proof.
  intros d e inp out wt li lo K T Rl Wl. unfold mdnsd_step.
  assert (A : match (if inp then process_in d li else Ok (d, 0)) with Ok (d', _) => exists h, does d d' h [] None | UB (OobRead _) => ~ brings self_contained li | _ => False end).
  { destruct inp; [|exists []; apply does_none]. apply (receive_runs li d (fun _ => 0) K); [|exact Rl]. intros o. cbn [b_at]. split; lia. }
  destruct (if inp then _ else _) as [[d1 rc1]| |[]|]; cbn [bind]; try contradiction; [|exact A]. destruct A as (h1 & D1). pose proof (does_reach _ _ _ _ _ K D1) as K1. clear inp.
  assert (B : match (if (rc1 =? 0) && out then process_out d1 lo else Ok (d1, [], rc1)) with Ok (d', ps, _) => exists h, does d1 d' h ps None
    | UB (OobWrite _) => exists d' h ps, does d1 d' h ps None /\ overflows h | Hang => process_out d1 lo = Hang | _ => False end).
  { destruct ((rc1 =? 0) && out); [|exists []; apply does_none]. pose proof (send_runs lo d1 K1 Wl) as S. destruct (process_out d1 lo) as [[[d2 ps] rc]| |[]|]; auto. }
  destruct (if (rc1 =? 0) && out then _ else _) as [[[d2 ps2] rc2]| |[]|]; cbn [bind]; try contradiction.
  - destruct B as (h2 & D2). pose proof (does_reach _ _ _ _ _ K1 D2) as K2. pose proof (does_app _ _ _ _ _ _ _ _ D1 D2) as D12. cbn [app] in D12.
    destruct ((rc2 =? 0) && wt); cbn [bind].
    + destruct (sleep_does d2 e K2 T) as (d3 & t & E3 & D3). rewrite E3. cbn [bind]. pose proof (does_app _ _ _ _ _ _ _ _ D12 D3) as D13. rewrite app_nil_r in D13. eexists. pose proof (end_does d3 e T) as (X1 & X2 & X3 & X4).
      destruct D13 as (Y1 & Y2 & Y3 & Y4). split; [exact (history_app _ _ _ _ _ Y1 X1)|]. split; [intros ev I; apply in_app_or in I as [I|I]; auto|]. split; [rewrite packets_app, X3, app_nil_r; exact Y3|].
      clear - Y4. revert Y4. generalize (mkevent d3 e OEndStep RUnit (with_disco d3 false)). intros ev Y4. revert Y4. induction ((h1 ++ h2) ++ [mkevent d2 e OSleep (RTime t) d3]) as [|a l IH]; intros Y4; [discriminate|]. cbn [app asleep] in *. destruct (ev_result a); auto.
    + eexists. pose proof (does_app _ _ _ _ _ _ _ _ D12 (end_does d2 e T)) as D. rewrite app_nil_r in D. exact D.
  - destruct B as (d2 & h2 & ps & D2 & Ov). exists d2. eexists. eexists. split; [exact (does_app _ _ _ _ _ _ _ _ D1 D2)|]. destruct Ov as (ev & m & n & I & Q). exists ev, m, n. split; [apply in_or_app; right; exact I|exact Q].
  - exists d1, h1, []. split; [exact D1|exact B].
Qed.

Lemma send_ends : forall d lo t ln la lp lb, reach d -> writing lo -> (forall x, In x lo -> e_now (fst x) = t) ->
  queue_is d Now ln -> queue_is d Pause la -> queue_is d Publish lp -> queue_is d Probing lb ->
  (length (uans (R d)) + length ln + length la + 4 * length lp + 8 * length lb + 2 * length (qlist (Q d)) < length lo)%nat -> process_out d lo <> Hang.
Proof.
  intros d lo t ln la lp lb K Wl Tl Q1 Q2 Q3 Q4 Len E. pose proof (send_runs lo d K Wl) as S. rewrite E in S. destruct S as (d' & h & ps & (Hh & _) & Lh & Al).
  assert (B : (length h <= length (uans (R d)) + length ln + length la + 4 * length lp + 8 * length lb + 2 * length (qlist (Q d)))%nat); [|lia].
  apply (drains t d h d' ln la lp lb K Hh); try assumption. intros ev I. apply In_nth_error in I as (i & I). assert (Hi : (i < length h)%nat) by (apply nth_error_Some; congruence). rewrite Lh in Hi.
  destruct (Al i Hi) as (x & m & n & A1 & A2 & A3 & A4 & A5). rewrite I in A1. injection A1 as <-. split; [exact A2|]. split; [|exists m, n; auto].
  destruct (nth_error lo i) as [p|] eqn:Ei; [|discriminate]. injection A5 as <-. apply Tl. eapply nth_error_In. exact Ei.
Qed.

Lemma fill_room : forall buf b, (forall i, fill buf b i <> buf i -> 0 <= i < RECV_SIZE) /\ fill buf b (RECV_SIZE - 1) = 0 /\
  (forall i, 0 <= i < zlen b -> i < RECV_SIZE - 1 -> fill buf b i = zget b i) /\ (forall i, zlen b <= i < RECV_SIZE - 1 -> fill buf b i = buf i).
Proof.
  intros buf b. unfold RECV_SIZE. split; [|split; [|split]].
  - intros i. unfold fill. destruct ((0 <=? i) && (i <? Z.min (zlen b) MAX_PACKET_LEN)) eqn:E; [intros _; lia|]. destruct (i =? MAX_PACKET_LEN) eqn:E2; [intros _; unfold MAX_PACKET_LEN in *; lia|]. intros H. contradiction H. reflexivity.
  - unfold fill. replace (MAX_PACKET_LEN + 1 - 1) with MAX_PACKET_LEN by lia. rewrite Z.eqb_refl. replace ((0 <=? MAX_PACKET_LEN) && (MAX_PACKET_LEN <? Z.min (zlen b) MAX_PACKET_LEN)) with false by lia. reflexivity.
  - intros i H1 H2. unfold fill. replace ((0 <=? i) && (i <? Z.min (zlen b) MAX_PACKET_LEN)) with true by lia. reflexivity.
  - intros i H. unfold fill. replace ((0 <=? i) && (i <? Z.min (zlen b) MAX_PACKET_LEN)) with false by lia. replace (i =? MAX_PACKET_LEN) with false by lia. reflexivity.
Qed.
