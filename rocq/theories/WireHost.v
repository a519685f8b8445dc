(* Invariant of the compression table and the effect of _host. *)
From Verif Require Import Base Lemmas SpecDns Wire WireSafe WireNames WireEnc.

(* An entry of the table: offset, literal labels there, labels behind the
   pointer that follows (none if the root follows). *)
Record entry : Type := mkentry { en_off : Z; en_lit : dname; en_rest : dname }.

Definition entry_ok (out : list Z) (names : list dname) (e : entry) : Prop :=
  12 <= en_off e /\
  en_lit e <> [] /\ Forall legal_label (en_lit e) /\
  seg (zget out) (en_off e) (wire (en_lit e)) /\
  en_off e + zlen (wire (en_lit e)) < zlen out /\
  (en_rest e = [] -> zget out (en_off e + zlen (wire (en_lit e))) = 0) /\
  (en_rest e <> [] -> 192 <= zget out (en_off e + zlen (wire (en_lit e)))) /\
  exists n, In n names /\ legal_name n /\ suffix_of (en_lit e ++ en_rest e) n.

Definition einv (ents : list entry) (out : list Z) (names : list dname) : Prop :=
  bytes out /\ 12 <= zlen out /\ Forall (entry_ok out names) ents.

Lemma suffix_app_length : forall p q n, suffix_of (p ++ q) n -> (length p <= length n)%nat.
Proof. intros p q n [a ->]. rewrite !app_length. lia. Qed.

Lemma legal_length : forall n, legal_name n -> 2 * Z.of_nat (length n) <= 255.
Proof.
  intros n (_ & H1 & H2). rewrite len_zlen in H2.
  assert (Forall (fun l => 1 <= len l) n).
  { eapply Forall_impl; [|exact H1]. intros l [H _]. cbv beta. rewrite len_zlen in *. lia. }
  pose proof (dotted_length n H). lia.
Qed.

Lemma legal_lab63 : forall n, Forall legal_label n -> Forall lab63 n.
Proof. intros n H. eapply Forall_impl; [|exact H]. intros l [Hl _]. exact Hl. Qed.

Lemma entry_match : forall out names e T lab x,
  bytes out -> entry_ok out names e -> Forall legal_label T -> seg (zget lab) x (wire T ++ [0]) ->
  (lmatch LMATCH_FUEL lab out (zlen out) (Lab x) (Pkt (en_off e)) = true <-> T = en_lit e).
Proof.
  intros out names e T lab x Hb (H12 & Hne & Hleg & Hseg & Hlt & Hr0 & Hr1 & n & Hin & Hn & Hsuf) HT Hlab.
  apply lmatch_spec; try assumption; try lia.
  - apply legal_lab63; assumption.
  - apply legal_lab63; assumption.
  - pose proof (suffix_app_length _ _ _ Hsuf). pose proof (legal_length n Hn). unfold LMATCH_FUEL. lia.
  - unfold term_at. destruct (en_rest e) eqn:E; [left; apply Hr0; reflexivity|right; apply Hr1; discriminate].
Qed.

Lemma find_label_spec : forall ents out names T lab x,
  bytes out -> Forall (entry_ok out names) ents -> Forall legal_label T -> seg (zget lab) x (wire T ++ [0]) ->
  (forall o, find_label lab out (zlen out) x (map en_off ents) = Some o -> exists e, In e ents /\ en_off e = o /\ en_lit e = T) /\
  (find_label lab out (zlen out) x (map en_off ents) = None -> forall e, In e ents -> en_lit e <> T).
Proof.
  induction ents as [|e ents IH]; intros out names T lab x Hb HF HT Hlab; cbn [map find_label].
  - split; [discriminate|]. intros _ e [].
  - inversion HF as [|? ? He HF']; subst. pose proof (entry_match _ _ _ _ _ _ Hb He HT Hlab) as Hm.
    destruct (IH _ _ _ _ _ Hb HF' HT Hlab) as [IH1 IH2].
    destruct (lmatch LMATCH_FUEL lab out (zlen out) (Lab x) (Pkt (en_off e))) eqn:E.
    + split; [|discriminate]. intros o Ho. injection Ho as <-. exists e. split; [left; reflexivity|]. split; [reflexivity|].
      symmetry. apply Hm. reflexivity.
    + split.
      * intros o Ho. destruct (IH1 o Ho) as (e' & H1 & H2). exists e'. split; [right; exact H1|exact H2].
      * intros Hn e' [<-|Hin]; [intros Heq|].
        -- assert (false = true) by (apply Hm; symmetry; exact Heq). discriminate.
        -- apply IH2; assumption.
Qed.

Definition ptr_bytes (o : Z) : list Z := [192 + o / 256; o mod 256].

Lemma ptr_bytes_eq : forall o, 0 <= o < 16384 ->
  (match short2net o with [h; l] => [Z.lor h 192; l] | _ => [] end) = ptr_bytes o.
Proof.
  intros o Ho. unfold short2net, ptr_bytes. cbv zeta. rewrite Z.shiftr_div_pow2 by lia. change (2 ^ 8) with 256.
  rewrite (Z.mod_small o 65536) by lia. rewrite (Z.mod_small (o / 256) 256) by lia.
  f_equal. pose proof (byte_forallb (fun c => implb (c <? 64) (Z.lor c 192 =? 192 + c)) eq_refl (o / 256) ltac:(unfold is_byte; lia)) as E.
  cbv beta in E. replace (o / 256 <? 64) with true in E by lia. cbn [implb] in E. lia.
Qed.

(* The tail written after the literal labels. *)
Definition tail_ok (ents : list entry) (T : dname) (tl : list Z) : Prop :=
  (T = [] /\ tl = [0]) \/
  (T <> [] /\ exists e, In e ents /\ en_lit e = T /\ tl = ptr_bytes (en_off e)).

Lemma compress_spec : forall T p0 ents out names fuel,
  bytes out -> Forall (entry_ok out names) ents -> zlen out <= 16384 -> Forall legal_label T -> (length T < fuel)%nat ->
  exists p1 T1 tl, T = p1 ++ T1 /\ tail_ok ents T1 tl /\
    compress fuel (wire (p0 ++ T) ++ [0]) out (zlen out) (zlen (wire p0)) (map en_off ents) = wire (p0 ++ p1) ++ tl /\
    (T1 = [] -> forall T2 e, T2 <> [] -> suffix_of T2 T -> In e ents -> en_lit e <> T2).
Proof.
  induction T as [|l T IH]; intros p0 ents out names fuel Hb HF Hsz HT Hfuel; (destruct fuel as [|f]; [cbn [length] in Hfuel; lia|]).
  - exists [], [], [0]. split; [reflexivity|]. split; [left; auto|]. split.
    + cbn [compress]. rewrite app_nil_r.
      assert (Hz : zget (wire p0 ++ [0]) (zlen (wire p0)) = 0) by (rewrite zget_app_at with (i := 0) by lia; reflexivity).
      rewrite Hz. reflexivity.
    + intros _ T2 e Hne [a Ha]. destruct a; destruct T2; cbn in Ha; try discriminate. contradiction.
  - inversion HT as [|? ? Hl HT']; subst.
    assert (Hlab : seg (zget (wire (p0 ++ l :: T) ++ [0])) (zlen (wire p0)) (wire (l :: T) ++ [0])).
    { rewrite wire_app, <- app_assoc. replace (wire p0 ++ wire (l :: T) ++ [0]) with (wire p0 ++ (wire (l :: T) ++ [0]) ++ []) by (rewrite app_nil_r; reflexivity).
      apply seg_self. }
    assert (Hc : zget (wire (p0 ++ l :: T) ++ [0]) (zlen (wire p0)) = zlen l).
    { rewrite wire_cons in Hlab. cbn [app] in Hlab. apply seg_cons in Hlab. apply Hlab. }
    destruct (legal_plain _ Hl) as (_ & Hlne & H63 & _ & _).
    cbn [compress]. rewrite Hc. destruct (Z.eqb_spec (zlen l) 0); [lia|].
    destruct (find_label_spec ents out names (l :: T) _ _ Hb HF HT Hlab) as [F1 F2].
    destruct (find_label (wire (p0 ++ l :: T) ++ [0]) out (zlen out) (zlen (wire p0)) (map en_off ents)) as [o|] eqn:EF.
    + destruct (F1 o eq_refl) as (e & Hin & Ho & Hlit). exists [], (l :: T), (ptr_bytes o).
      split; [reflexivity|]. split.
      { right. split; [discriminate|]. exists e. rewrite Ho. auto. }
      split; [|discriminate].
      rewrite Forall_forall in HF. pose proof (HF e Hin) as (H12 & _ & _ & _ & Hlt & _). pose proof (zlen_nonneg _ (wire (en_lit e))).
      rewrite <- (ptr_bytes_eq o) by lia. unfold short2net. cbv zeta. f_equal.
      rewrite app_nil_r, wire_app, <- app_assoc. unfold zlen. rewrite Nat2Z.id, firstn_app, firstn_all, Nat.sub_diag.
      cbn [firstn]. apply app_nil_r.
    + rewrite land_192_lit by exact H63. cbn [negb].
      replace (p0 ++ l :: T) with ((p0 ++ [l]) ++ T) by (rewrite <- app_assoc; reflexivity).
      replace (zlen (wire p0) + zlen l + 1) with (zlen (wire (p0 ++ [l]))).
      2:{ rewrite wire_app, zlen_app, zlen_wire_cons. change (zlen (wire [])) with 0. lia. }
      destruct (IH (p0 ++ [l]) ents out names f Hb HF Hsz HT') as (p1 & T1 & tl & E1 & E2 & E3 & E4).
      { cbn [length] in Hfuel. lia. }
      exists (l :: p1), T1, tl. split; [cbn [app]; rewrite E1; reflexivity|]. split; [exact E2|]. split.
      * rewrite E3. rewrite <- app_assoc. reflexivity.
      * intros HT1 T2 e Hne [a Ha] Hin. destruct a as [|a0 a].
        -- cbn [app] in Ha. rewrite <- Ha. apply F2; [reflexivity|exact Hin].
        -- cbn [app] in Ha. inversion Ha; subst. apply E4; try assumption; try reflexivity. exists a. congruence.
Qed.

Fixpoint offs (base : Z) (n : dname) : list Z :=
  match n with
  | [] => []
  | l :: n' => base :: offs (base + 1 + zlen l) n'
  end.

Fixpoint new_ents (base : Z) (p rest : dname) : list entry :=
  match p with
  | [] => []
  | l :: p' => mkentry base p rest :: new_ents (base + 1 + zlen l) p' rest
  end.

Lemma new_ents_offs : forall p base rest, map en_off (new_ents base p rest) = offs base p.
Proof. induction p as [|l p IH]; intros base rest; cbn [new_ents offs map]; [reflexivity|]. rewrite IH. reflexivity. Qed.

Lemma new_ents_length : forall p base rest, length (new_ents base p rest) = length p.
Proof. induction p as [|l p IH]; intros base rest; cbn [new_ents length]; [reflexivity|]. rewrite IH. reflexivity. Qed.

Lemma newlabels_spec : forall p fuel a tl base labels, (length p < fuel)%nat -> Forall legal_label p ->
  zget tl 0 = 0 \/ 192 <= zget tl 0 < 256 ->
  newlabels fuel (wire (a ++ p) ++ tl) base (zlen (wire a)) labels
  = labels ++ firstn (Z.to_nat (MAX_NUM_LABELS - zlen labels)) (offs (base + zlen (wire a)) p).
Proof.
  induction p as [|l p IH]; intros fuel a tl base labels Hfuel Hleg Htl; (destruct fuel as [|f]; [cbn [length] in Hfuel; lia|]); cbn [newlabels].
  - rewrite app_nil_r. rewrite zget_app_at with (i := 0) by lia. cbn [offs]. rewrite firstn_nil, app_nil_r.
    destruct Htl as [->|Ht]; [reflexivity|].
    destruct (Z.eqb_spec (zget tl 0) 0); [lia|]. cbn [orb].
    destruct (negb (zlen labels <? MAX_NUM_LABELS)); [reflexivity|].
    rewrite land_192 by (unfold is_byte; lia). destruct (Z.ltb_spec (zget tl 0) 64); [lia|]. reflexivity.
  - inversion Hleg as [|? ? Hl Hleg']; subst. destruct (legal_plain _ Hl) as (_ & Hlne & H63 & _ & _).
    assert (Hc : zget (wire (a ++ l :: p) ++ tl) (zlen (wire a)) = zlen l).
    { rewrite wire_app, <- app_assoc. rewrite zget_app_at with (i := 0) by lia. rewrite wire_cons. cbn [app]. apply zget_0. }
    rewrite Hc. destruct (Z.eqb_spec (zlen l) 0); [lia|]. cbn [orb].
    destruct (Z.ltb_spec (zlen labels) MAX_NUM_LABELS) as [L|L]; cbn [negb].
    + rewrite land_192_lit by exact H63. cbn [negb].
      replace (a ++ l :: p) with ((a ++ [l]) ++ p) by (rewrite <- app_assoc; reflexivity).
      assert (Hw : zlen (wire (a ++ [l])) = zlen (wire a) + zlen l + 1).
      { rewrite wire_app, zlen_app, zlen_wire_cons. change (zlen (wire [])) with 0. lia. }
      rewrite <- Hw. rewrite IH by (try assumption; cbn [length] in Hfuel; lia).
      rewrite zlen_app, zlen_cons, zlen_nil, <- app_assoc. f_equal.
      replace (Z.to_nat (MAX_NUM_LABELS - zlen labels)) with (S (Z.to_nat (MAX_NUM_LABELS - (zlen labels + (1 + 0))))) by lia.
      cbn [offs firstn app]. rewrite Hw. replace (base + (zlen (wire a) + zlen l + 1)) with (base + zlen (wire a) + 1 + zlen l) by lia. reflexivity.
    + replace (Z.to_nat (MAX_NUM_LABELS - zlen labels)) with O by lia. cbn [firstn]. rewrite app_nil_r. reflexivity.
Qed.

Lemma tail_first : forall ents out names T tl, Forall (entry_ok out names) ents -> zlen out <= 16384 -> tail_ok ents T tl ->
  bytes tl /\ 1 <= zlen tl <= 2 /\ ((T = [] /\ zget tl 0 = 0) \/ (T <> [] /\ 192 <= zget tl 0 < 256)).
Proof.
  intros ents out names T tl HF Hsz [[-> ->]|[Hne (e & Hin & Hlit & ->)]].
  - split; [repeat constructor; lia|]. split; [rewrite zlen_cons, zlen_nil; lia|]. left; auto.
  - rewrite Forall_forall in HF. pose proof (HF e Hin) as (H12 & _ & _ & _ & Hlt & _). pose proof (zlen_nonneg _ (wire (en_lit e))).
    unfold ptr_bytes. split; [repeat constructor; lia|]. split; [rewrite !zlen_cons, zlen_nil; lia|]. right. rewrite zget_0. split; [exact Hne|lia].
Qed.

(* Effect of _host on a legal name. *)
Lemma host_spec : forall m ents names n s,
  einv ents (e_out m) names -> e_labels m = map en_off ents -> packet_len m <= 16384 ->
  legal_name n -> denotes s n ->
  exists p T tl,
    n = p ++ T /\ tail_ok ents T tl /\
    host m (Some s) =
      (mkenc (e_out m ++ wire p ++ tl)
             (map en_off (ents ++ firstn (Z.to_nat (MAX_NUM_LABELS - zlen (e_labels m))) (new_ents (packet_len m) p T)))
             (e_qd m) (e_an m) (e_ns m) (e_ar m)
             (e_ovf m || (MAX_PACKET_LEN <? packet_len m + zlen (wire p ++ tl))),
       zlen (wire p ++ tl)) /\
    (T = [] -> forall T2 e, T2 <> [] -> suffix_of T2 n -> In e ents -> en_lit e <> T2).
Proof.
  intros m ents names n s (Hb & H12 & HF) Hlab Hsz Hn Hden. destruct Hn as (Hne & Hleg & Hlen) eqn:En. clear En.
  pose proof (legal_length n Hn) as Hln. rewrite len_zlen in Hlen.
  destruct (mklabel_spec n [] s Hne Hleg Hden) as (lab & last & E1 & E2); [rewrite zlen_nil; lia|].
  cbn [app] in E1, E2. rewrite zlen_nil in E1.
  unfold packet_len in Hsz.
  destruct (compress_spec n [] ents (e_out m) names LABEL_FUEL Hb HF Hsz Hleg) as (p & T & tl & Hp & Ht & Hc & Hm).
  { unfold LABEL_FUEL. lia. }
  exists p, T, tl. split; [exact Hp|]. split; [exact Ht|]. split; [|exact Hm].
  cbn [app] in Hc. change (zlen (wire [])) with 0 in Hc.
  unfold host. rewrite E1, E2. unfold packet_len. rewrite Hlab, Hc. cbv zeta.
  destruct (tail_first _ _ _ _ _ HF Hsz Ht) as (Htb & Htl & Ht0).
  pose proof (newlabels_spec p LABEL_FUEL [] tl (zlen (e_out m)) (map en_off ents)) as HN.
  cbn [app] in HN. change (zlen (wire [])) with 0 in HN. rewrite Z.add_0_r in HN. rewrite HN.
  - rewrite map_app, <- firstn_map, new_ents_offs. reflexivity.
  - assert (length n = length p + length T)%nat by (rewrite Hp, app_length; reflexivity). unfold LABEL_FUEL. lia.
  - rewrite Hp in Hleg. apply Forall_app in Hleg. tauto.
  - tauto.
Qed.

(* Entries survive appending. *)
Lemma entry_ok_app : forall out x names e, entry_ok out names e -> entry_ok (out ++ x) names e.
Proof.
  intros out x names e (H12 & Hne & Hleg & Hseg & Hlt & Hr0 & Hr1 & Hn). pose proof (zlen_nonneg _ (wire (en_lit e))). pose proof (zlen_nonneg _ x).
  unfold entry_ok. rewrite zlen_app, zget_app_l by lia. repeat (split; [first [assumption|lia]|]). 
  split; [|split; [lia|auto]].
  eapply seg_ext; [|exact Hseg]. intros i Hi. cbv beta. symmetry. apply zget_app_l. lia.
Qed.

Lemma entry_ok_names : forall out names x e, entry_ok out names e -> entry_ok out (names ++ x) e.
Proof.
  intros out names x e (H12 & Hne & Hleg & Hseg & Hlt & Hr0 & Hr1 & n & Hin & Hn). unfold entry_ok.
  repeat (split; [assumption|]). exists n. split; [apply in_or_app; left; exact Hin|exact Hn].
Qed.

Lemma einv_app : forall ents out names x, einv ents out names -> bytes x -> einv ents (out ++ x) names.
Proof.
  intros ents out names x (Hb & H12 & HF) Hx. split; [apply bytes_app; auto|]. split; [rewrite zlen_app; pose proof (zlen_nonneg _ x); lia|].
  eapply Forall_impl; [|exact HF]. intros e. apply entry_ok_app.
Qed.

Lemma wire_bytes : forall n, Forall legal_label n -> bytes (wire n).
Proof.
  induction n as [|l n IH]; intros H; [constructor|]. inversion H as [|? ? Hl Hn]; subst. destruct (legal_plain _ Hl) as (_ & _ & H63 & _ & Hb).
  rewrite wire_cons. apply bytes_app. split; [|apply IH; exact Hn]. constructor; [unfold is_byte; lia|exact Hb].
Qed.

Lemma new_ents_ok : forall p base out names T n,
  Forall legal_label p -> 12 <= base -> seg (zget out) base (wire p) -> base + zlen (wire p) < zlen out ->
  (T = [] -> zget out (base + zlen (wire p)) = 0) -> (T <> [] -> 192 <= zget out (base + zlen (wire p))) ->
  In n names -> legal_name n -> suffix_of (p ++ T) n ->
  Forall (entry_ok out names) (new_ents base p T).
Proof.
  induction p as [|l p IH]; intros base out names T n Hleg H12 Hseg Hlt H0 H1 Hin Hn Hsuf; cbn [new_ents]; [constructor|].
  inversion Hleg as [|? ? Hl Hleg']; subst. pose proof (zlen_nonneg _ l). constructor.
  - unfold entry_ok. cbn [en_off en_lit en_rest]. repeat (split; [first [assumption|discriminate]|]). exists n; auto.
  - rewrite wire_cons in Hseg. apply seg_app in Hseg. destruct Hseg as [_ Hseg]. rewrite zlen_cons in Hseg.
    rewrite zlen_wire_cons in *. replace (base + (1 + zlen l)) with (base + 1 + zlen l) in Hseg by lia.
    replace (base + (1 + zlen l + zlen (wire p))) with (base + 1 + zlen l + zlen (wire p)) in * by lia.
    apply IH with (n := n); try assumption; try lia.
    destruct Hsuf as [a ->]. exists (a ++ [l]). rewrite <- app_assoc. reflexivity.
Qed.

Lemma firstn_Forall : forall (A : Type) (P : A -> Prop) n l, Forall P l -> Forall P (firstn n l).
Proof.
  intros A P n l H. rewrite Forall_forall in *. intros x Hx. apply H. rewrite <- (firstn_skipn n l). apply in_or_app. left. exact Hx.
Qed.

(* The invariant after a name. *)
Lemma einv_host : forall ents out names n p T tl k,
  einv ents out names -> zlen out <= 16384 -> legal_name n -> n = p ++ T -> tail_ok ents T tl ->
  einv (ents ++ firstn k (new_ents (zlen out) p T)) (out ++ wire p ++ tl) (names ++ [n]).
Proof.
  intros ents out names n p T tl k (Hb & H12 & HF) Hsz Hn Hp Ht.
  destruct (tail_first _ _ _ _ _ HF Hsz Ht) as (Htb & Htl & Ht0).
  assert (Hleg : Forall legal_label p).
  { destruct Hn as (_ & Hl & _). rewrite Hp in Hl. apply Forall_app in Hl. tauto. }
  pose proof (zlen_nonneg _ (wire p)).
  split; [|split].
  - apply bytes_app. split; [exact Hb|]. apply bytes_app. split; [apply wire_bytes; exact Hleg|exact Htb].
  - rewrite !zlen_app. lia.
  - apply Forall_app. split.
    + eapply Forall_impl; [|exact HF]. intros e He. apply entry_ok_names, entry_ok_app, He.
    + apply firstn_Forall.
      assert (Hz : zget (out ++ wire p ++ tl) (zlen out + zlen (wire p)) = zget tl 0).
      { rewrite app_assoc. apply zget_app_at; rewrite ?zlen_app; lia. }
      apply new_ents_ok with (n := n); try assumption; try lia.
      * apply seg_self.
      * rewrite !zlen_app. lia.
      * intros HT. rewrite Hz. tauto.
      * intros HT. rewrite Hz. destruct Ht0 as [[E _]|[_ E]]; [contradiction|lia].
      * apply in_or_app. right. left. reflexivity.
      * exists []. exact Hp.
Qed.

(* ------------------------------------------------------------------ *)
(* Decoding what was written *)

Lemma lit_simple : forall T get N lim o, Forall legal_label T -> 0 <= o -> seg get o (wire T) ->
  get (o + zlen (wire T)) = 0 -> o + zlen (wire T) < N ->
  name_at_simple get N lim o T (o + zlen (wire T) + 1).
Proof.
  induction T as [|l T IH]; intros get N lim o Hleg Ho Hseg Hz HN.
  - change (zlen (wire [])) with 0 in *. rewrite Z.add_0_r in *. apply ns_root; [lia|exact Hz].
  - inversion Hleg as [|? ? Hl HT]; subst. destruct (legal_plain _ Hl) as (_ & _ & H63 & _ & _).
    rewrite wire_cons in Hseg. apply seg_app in Hseg. destruct Hseg as [Hs1 Hs2]. apply seg_cons in Hs1. destruct Hs1 as [Hs0 Hs1].
    rewrite zlen_wire_cons in *. rewrite zlen_cons in Hs2. pose proof (zlen_nonneg _ (wire T)).
    apply ns_label; rewrite ?len_zlen; try assumption; try lia.
    + apply seg_region. exact Hs1.
    + replace (o + (1 + zlen l + zlen (wire T)) + 1) with (o + 1 + zlen l + zlen (wire T) + 1) by lia.
      apply IH; try assumption; try lia.
      * replace (o + 1 + zlen l) with (o + (1 + zlen l)) by lia. exact Hs2.
      * rewrite <- Hz. f_equal. lia.
Qed.

Lemma enc_simple : forall p get N lim o T e tl, Forall legal_label p -> 0 <= o -> seg get o (wire p ++ tl) ->
  o + zlen (wire p) + zlen tl <= N -> Forall legal_label T ->
  ((T = [] /\ tl = [0]) \/
   (T <> [] /\ 12 <= e /\ e + zlen (wire T) < o /\ e < 16384 /\ tl = ptr_bytes e /\ e <= lim /\ seg get e (wire T) /\ get (e + zlen (wire T)) = 0)) ->
  name_at_simple get N lim o (p ++ T) (o + zlen (wire p) + zlen tl).
Proof.
  induction p as [|l p IH]; intros get N lim o T e tl Hleg Ho Hseg HN HT Hcase.
  - change (wire []) with (@nil Z) in *. cbn [app] in *. rewrite zlen_nil, Z.add_0_r in *.
    destruct Hcase as [[-> ->]|(Hne & H12 & Hlt & H14 & -> & Hlim & Hse & Hz)].
    + apply seg_cons in Hseg. destruct Hseg as [Hz _]. apply ns_root; [change (zlen [0]) with 1 in HN; lia|exact Hz].
    + unfold ptr_bytes in *. apply seg_cons in Hseg. destruct Hseg as [Hg0 Hseg]. apply seg_cons in Hseg. destruct Hseg as [Hg1 _].
      rewrite !zlen_cons, zlen_nil in *. pose proof (zlen_nonneg _ (wire T)).
      replace (o + (1 + (1 + 0))) with (o + 2) by lia.
      eapply ns_ptr with (t := e) (e := e + zlen (wire T) + 1); try lia.
      * destruct T as [|l T]; [contradiction|]. inversion HT as [|? ? Hl _]; subst. destruct (legal_plain _ Hl) as (_ & _ & H63 & _ & _).
        rewrite wire_cons in Hse. cbn [app] in Hse. apply seg_cons in Hse. destruct Hse as [-> _]. lia.
      * apply lit_simple; try assumption; lia.
  - inversion Hleg as [|? ? Hl Hp]; subst. destruct (legal_plain _ Hl) as (_ & _ & H63 & _ & _).
    rewrite wire_cons, <- app_assoc in Hseg. apply seg_app in Hseg. destruct Hseg as [Hs1 Hs2]. apply seg_cons in Hs1. destruct Hs1 as [Hs0 Hs1].
    rewrite zlen_wire_cons in *. rewrite zlen_cons in Hs2. pose proof (zlen_nonneg _ (wire p)). cbn [app].
    assert (1 <= zlen tl) by (destruct Hcase as [[_ ->]|(_ & _ & _ & _ & -> & _)]; [change (zlen [0]) with 1|unfold ptr_bytes; rewrite !zlen_cons, zlen_nil]; lia).
    apply ns_label; rewrite ?len_zlen; try assumption; try lia.
    + apply seg_region. exact Hs1.
    + replace (o + (1 + zlen l + zlen (wire p)) + zlen tl) with (o + 1 + zlen l + zlen (wire p) + zlen tl) by lia.
      apply IH with (e := e); try assumption; try lia.
      * replace (o + 1 + zlen l) with (o + (1 + zlen l)) by lia. exact Hs2.
      * destruct Hcase as [Hc|(? & ? & ? & ? & ? & ? & ? & ?)]; [left; exact Hc|right]. repeat (split; [first [assumption|lia]|]). assumption.
Qed.

(* Without clashes a matched entry is literal to the root, and what was
   written denotes the name, in any later packet. *)
Lemma host_denotes : forall ents out names n p T tl get N lim,
  einv ents out names -> zlen out <= 16384 -> legal_name n -> n = p ++ T -> tail_ok ents T tl ->
  Forall (fun n' => ~ clash n n') names ->
  (forall i, 12 <= i < zlen out + zlen (wire p ++ tl) -> get i = zget (out ++ wire p ++ tl) i) ->
  zlen out + zlen (wire p ++ tl) <= N ->
  (forall e, In e ents -> en_rest e = [] -> en_off e <= lim) ->
  name_at_simple get N lim (zlen out) n (zlen out + zlen (wire p ++ tl)).
Proof.
  intros ents out names n p T tl get N lim (Hb & H12 & HF) Hsz Hn Hp Ht Hnc Hget HN Hlim.
  assert (Hleg : Forall legal_label p /\ Forall legal_label T).
  { destruct Hn as (_ & Hl & _). rewrite Hp in Hl. apply Forall_app in Hl. exact Hl. }
  destruct Hleg as [Hlp HlT]. pose proof (zlen_nonneg _ (wire p)). pose proof (zlen_nonneg _ tl).
  rewrite zlen_app in *. rewrite Hp. replace (zlen out + (zlen (wire p) + zlen tl)) with (zlen out + zlen (wire p) + zlen tl) by lia.
  destruct Ht as [[-> ->]|[Hne (e & Hin & Hlit & ->)]].
  - apply enc_simple with (e := 0); try assumption; try lia; [|left; auto].
    intros i Hi. rewrite zlen_app in Hi. rewrite Hget by lia. apply zget_app_at; lia.
  - rewrite Forall_forall in HF. pose proof (HF e Hin) as (He12 & _ & _ & Heseg & Helt & He0 & He1 & n' & Hin' & Hn' & Hsuf).
    rewrite Hlit in *. pose proof (zlen_nonneg _ (wire T)).
    assert (Hrest : en_rest e = []).
    { destruct (en_rest e) as [|r rs] eqn:Er; [reflexivity|]. exfalso. rewrite Forall_forall in Hnc. apply (Hnc n' Hin').
      exists T, (r :: rs). split; [exact Hne|]. split; [discriminate|]. split; [exists p; exact Hp|exact Hsuf]. }
    apply enc_simple with (e := en_off e); try assumption; try lia.
    + intros i Hi. rewrite zlen_app in Hi. rewrite Hget by lia. apply zget_app_at; lia.
    + right. split; [exact Hne|]. split; [exact He12|]. split; [lia|]. split; [lia|]. split; [reflexivity|]. split; [apply Hlim; assumption|].
      split.
      * intros i Hi. rewrite Hget by lia. rewrite zget_app_l by lia. apply Heseg. exact Hi.
      * rewrite Hget by lia. rewrite zget_app_l by lia. apply He0. exact Hrest.
Qed.
