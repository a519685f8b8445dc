(* The bytes written by each call, and property C03. *)
From Verif Require Import Base Lemmas SpecDns Wire WireSafe WireNames WireEnc WireHost WireCalls.

Lemma short2net_val : forall v, short2net v = [v mod 65536 / 256; v mod 256].
Proof.
  intros v. unfold short2net. cbv zeta. rewrite Z.shiftr_div_pow2 by lia. change (2 ^ 8) with 256. f_equal; [lia|]. f_equal. lia.
Qed.
Lemma short2net_bytes : forall v, bytes (short2net v).
Proof. intros. rewrite short2net_val. repeat constructor; lia. Qed.
Lemma long2net_val : forall v, long2net v = [v mod 4294967296 / 16777216; v mod 16777216 / 65536; v mod 65536 / 256; v mod 256].
Proof.
  intros v. unfold long2net. cbv zeta. rewrite !Z.shiftr_div_pow2 by lia.
  change (2 ^ 24) with 16777216. change (2 ^ 16) with 65536. change (2 ^ 8) with 256. change (2 ^ 64) with 18446744073709551616.
  repeat (f_equal; [lia|]). f_equal. lia.
Qed.
Lemma long2net_bytes : forall v, bytes (long2net v).
Proof. intros. rewrite long2net_val. repeat constructor; lia. Qed.
Lemma zlen_short : forall v, zlen (short2net v) = 2.
Proof. reflexivity. Qed.
Lemma zlen_long : forall v, zlen (long2net v) = 4.
Proof. reflexivity. Qed.

(* _host only appends. *)
Lemma host_app : forall m name, exists w labels ovf,
  host m name = (mkenc (e_out m ++ w) labels (e_qd m) (e_an m) (e_ns m) (e_ar m) ovf, zlen w).
Proof.
  intros m name. unfold host. destruct name as [name|].
  - destruct (mklabel name [0] 0) as [[lab last]|].
    + cbv zeta. eexists _, _, _. reflexivity.
    + exists [], (e_labels m), (e_ovf m). rewrite app_nil_r, zlen_nil. destruct m; reflexivity.
  - exists [], (e_labels m), (e_ovf m). rewrite app_nil_r, zlen_nil. destruct m; reflexivity.
Qed.

Lemma patch2_at : forall out x y rest labels qd an ns ar ovf v,
  patch2 (mkenc ((out ++ [x; y]) ++ rest) labels qd an ns ar ovf) (zlen out) v
  = mkenc (out ++ short2net v ++ rest) labels qd an ns ar ovf.
Proof.
  intros. unfold patch2. rewrite short2net_val. cbn [e_out e_labels e_qd e_an e_ns e_ar e_ovf]. f_equal.
  rewrite <- app_assoc. cbn [app]. rewrite upd_at by reflexivity.
  change (out ++ v mod 65536 / 256 :: y :: rest) with (out ++ [v mod 65536 / 256] ++ y :: rest).
  rewrite app_assoc. rewrite upd_at by (rewrite zlen_app, zlen_cons, zlen_nil; lia).
  rewrite <- app_assoc. reflexivity.
Qed.

(* Bytes before and after the name, when the name took wl bytes. *)
Definition lead (c : call) (wl : Z) : list Z :=
  match c with
  | CName _ _ => short2net wl
  | CSrv p w q _ _ => short2net (wl + 6) ++ short2net p ++ short2net w ++ short2net q
  | _ => []
  end.
Definition trail (c : call) : list Z :=
  match c with
  | CQd _ _ ty cl => short2net ty ++ short2net cl
  | CRr _ _ _ ty cl ttl => short2net ty ++ short2net cl ++ long2net ttl
  | _ => []
  end.

Lemma lead_bytes : forall c wl, bytes (lead c wl).
Proof. intros [] wl; cbn [lead]; repeat (apply bytes_app; split); try apply short2net_bytes; constructor. Qed.
Lemma trail_bytes : forall c, bytes (trail c).
Proof. intros []; cbn [trail]; repeat (apply bytes_app; split); try apply short2net_bytes; try apply long2net_bytes; constructor. Qed.
Lemma lead_len : forall c wl, zlen (lead c wl) = bytes_before c.
Proof. intros [] wl; reflexivity. Qed.
Lemma trail_len : forall c, zlen (trail c) = bytes_after c.
Proof. intros []; reflexivity. Qed.

Lemma text_denotes : forall d n, n <> [] -> denotes (text d n) n.
Proof.
  intros [] n Hn; [left; reflexivity|]. right. unfold text. symmetry. 
  assert (H : exists s, dotted n = s ++ [46]).
  { induction n as [|l n IH]; [contradiction|]. rewrite dotted_cons. destruct n as [|l2 n].
    - exists l. reflexivity.
    - destruct IH as [s E]; [discriminate|]. exists (l ++ [46] ++ s). rewrite E, <- !app_assoc. reflexivity. }
  destruct H as [s ->]. rewrite removelast_last. reflexivity.
Qed.

(* The effect of a call that writes a name, in terms of the table entries
   before the call. *)
Lemma call_name_spec : forall m c n ents names,
  einv ents (e_out m) names -> e_labels m = map en_off ents ->
  call_name c = Some n -> legal_name n -> packet_len (do_call m c) <= 16384 ->
  exists p T tl k,
    n = p ++ T /\ tail_ok ents T tl /\
    e_out (do_call m c) = (e_out m ++ lead c (zlen (wire p ++ tl))) ++ (wire p ++ tl) ++ trail c /\
    k = Z.to_nat (MAX_NUM_LABELS - zlen (e_labels m)) /\
    e_labels (do_call m c) = map en_off (ents ++ firstn k (new_ents (packet_len m + bytes_before c) p T)) /\
    (T = [] -> forall T2 e, T2 <> [] -> suffix_of T2 n -> In e ents -> en_lit e <> T2) /\
    packet_len m + bytes_before c <= 16384.
Proof.
  intros m c n ents names Hinv Hlab Hcn Hn Hsz.
  assert (Hne : n <> []) by apply Hn.
  assert (Hgen : forall lead0, bytes lead0 -> zlen lead0 = bytes_before c ->
     forall m0, e_out m0 = e_out m ++ lead0 -> e_labels m0 = e_labels m ->
     packet_len m0 <= 16384 ->
     forall dot, exists p T tl,
       n = p ++ T /\ tail_ok ents T tl /\
       host m0 (Some (text dot n)) =
         (mkenc (e_out m0 ++ wire p ++ tl)
             (map en_off (ents ++ firstn (Z.to_nat (MAX_NUM_LABELS - zlen (e_labels m))) (new_ents (packet_len m + bytes_before c) p T)))
             (e_qd m0) (e_an m0) (e_ns m0) (e_ar m0)
             (e_ovf m0 || (MAX_PACKET_LEN <? packet_len m0 + zlen (wire p ++ tl))),
          zlen (wire p ++ tl)) /\
       (T = [] -> forall T2 e, T2 <> [] -> suffix_of T2 n -> In e ents -> en_lit e <> T2)).
  { intros lead0 Hlb Hll m0 Hout Hlabs Hsz0 dot.
    assert (Hinv0 : einv ents (e_out m0) names) by (rewrite Hout; apply einv_app; assumption).
    destruct (host_spec m0 ents names n (text dot n) Hinv0) as (p & T & tl & H1 & H2 & H3 & H4); try assumption.
    - congruence.
    - apply text_denotes; exact Hne.
    - exists p, T, tl. split; [exact H1|]. split; [exact H2|]. split; [|exact H4]. rewrite H3. rewrite Hlabs.
      assert (Hpl : packet_len m0 = packet_len m + bytes_before c) by (unfold packet_len; rewrite Hout, zlen_app, Hll; reflexivity).
      rewrite Hpl. reflexivity. }
  assert (Hmono : forall m0 name, packet_len m0 <= packet_len (fst (host m0 name))).
  { intros m0 name. destruct (host_app m0 name) as (w & labels & ovf & E). rewrite E. unfold packet_len. cbn [fst e_out]. rewrite zlen_app.
    pose proof (zlen_nonneg _ w). lia. }
  destruct c as [dot n0 ty cl|sec dot n0 ty cl ttl|v|a|a|dot n0|pr we po dot n0|d]; cbn [call_name] in Hcn; try discriminate; injection Hcn as ->.
  - set (m0 := mkenc (e_out m) (e_labels m) ((e_qd m + 1) mod 65536) (e_an m) (e_ns m) (e_ar m) (e_ovf m)).
    assert (Hs0 : packet_len m0 <= 16384).
    { pose proof (Hmono m0 (Some (text dot n))). cbn [do_call] in Hsz. unfold message_qd in Hsz. cbv zeta in Hsz. fold m0 in Hsz.
      unfold packet_len in *. cbn [put e_out] in Hsz. rewrite !zlen_app, !zlen_short in Hsz. lia. }
    destruct (Hgen [] ltac:(constructor) eq_refl m0 ltac:(cbn; rewrite app_nil_r; reflexivity) eq_refl Hs0 dot) as (p & T & tl & H1 & H2 & H3 & H4).
    exists p, T, tl. eexists. split; [exact H1|]. split; [exact H2|].
    cbn [do_call]. unfold message_qd. cbv zeta. fold m0. rewrite H3. cbn [fst put e_out e_labels lead trail].
    rewrite app_nil_r. split; [cbn [m0 e_out]; rewrite <- !app_assoc; reflexivity|]. split; [reflexivity|]. split; [reflexivity|]. split; [exact H4|].
    unfold packet_len in *. cbn [m0 e_out bytes_before] in *. lia.
  - assert (Hsec : exists qd an ns ar, do_call m (CRr sec dot n ty cl ttl) = rrappend (mkenc (e_out m) (e_labels m) qd an ns ar (e_ovf m)) (Some (text dot n)) ty cl ttl).
    { destruct sec; cbn [do_call]; unfold message_an, message_ns, message_ar; eexists _, _, _, _; reflexivity. }
    destruct Hsec as (qd & an & ns & ar & Ed). rewrite Ed in *. set (m0 := mkenc (e_out m) (e_labels m) qd an ns ar (e_ovf m)) in *.
    assert (Hs0 : packet_len m0 <= 16384).
    { pose proof (Hmono m0 (Some (text dot n))). unfold rrappend in Hsz.
      unfold packet_len in *. cbn [put e_out] in Hsz. rewrite !zlen_app, !zlen_short, zlen_long in Hsz. lia. }
    destruct (Hgen [] ltac:(constructor) eq_refl m0 ltac:(cbn; rewrite app_nil_r; reflexivity) eq_refl Hs0 dot) as (p & T & tl & H1 & H2 & H3 & H4).
    exists p, T, tl. eexists. split; [exact H1|]. split; [exact H2|].
    unfold rrappend. rewrite H3. cbn [fst put e_out e_labels lead trail].
    rewrite app_nil_r. split; [cbn [m0 e_out]; rewrite <- !app_assoc; reflexivity|]. split; [reflexivity|]. split; [reflexivity|]. split; [exact H4|].
    unfold packet_len in *. cbn [m0 e_out bytes_before] in *. lia.
  - set (m0 := put m [0; 0]).
    assert (Hs0 : packet_len m0 <= 16384).
    { destruct (host_app m0 (Some (text dot n))) as (w & labels & ovf & E). cbn [do_call] in Hsz. unfold rdata_name in Hsz. cbv zeta in Hsz. fold m0 in Hsz.
      rewrite E in Hsz. unfold m0 in Hsz. cbn [put e_out] in Hsz. unfold packet_len in *. rewrite patch2_at in Hsz. cbn [e_out m0 put] in *.
      rewrite !zlen_app, zlen_short in *. change (zlen [0; 0]) with 2. pose proof (zlen_nonneg _ w). lia. }
    destruct (Hgen [0; 0] ltac:(repeat constructor; lia) eq_refl m0 eq_refl eq_refl Hs0 dot) as (p & T & tl & H1 & H2 & H3 & H4).
    exists p, T, tl. eexists. split; [exact H1|]. split; [exact H2|].
    cbn [do_call]. unfold rdata_name. cbv zeta. fold m0. rewrite H3. unfold m0 at 1. cbn [put e_out]. unfold packet_len at 1 3. rewrite patch2_at. cbn [e_out e_labels lead trail].
    rewrite app_nil_r. split; [rewrite <- !app_assoc; reflexivity|]. split; [reflexivity|]. split; [reflexivity|]. split; [exact H4|].
    unfold packet_len in *. cbn [m0 put e_out bytes_before] in *. rewrite zlen_app in Hs0. change (zlen [0; 0]) with 2 in Hs0. lia.
  - set (m0 := put (put (put (put m [0; 0]) (short2net pr)) (short2net we)) (short2net po)).
    assert (Ho0 : e_out m0 = e_out m ++ [0; 0] ++ short2net pr ++ short2net we ++ short2net po) by (unfold m0; cbn [put e_out]; rewrite <- !app_assoc; reflexivity).
    assert (Hs0 : packet_len m0 <= 16384).
    { destruct (host_app m0 (Some (text dot n))) as (w & labels & ovf & E). cbn [do_call] in Hsz. unfold rdata_srv in Hsz. cbv zeta in Hsz. fold m0 in Hsz.
      rewrite E, Ho0 in Hsz. unfold packet_len in *. rewrite <- app_assoc in Hsz.
      replace (e_out m ++ ([0; 0] ++ short2net pr ++ short2net we ++ short2net po) ++ w) with ((e_out m ++ [0; 0]) ++ (short2net pr ++ short2net we ++ short2net po) ++ w) in Hsz by (rewrite <- !app_assoc; reflexivity).
      rewrite patch2_at in Hsz. cbn [e_out] in *. rewrite Ho0.
      rewrite !zlen_app, !zlen_short in *. change (zlen [0; 0]) with 2. pose proof (zlen_nonneg _ w). lia. }
    destruct (Hgen ([0; 0] ++ short2net pr ++ short2net we ++ short2net po)) with (m0 := m0) (dot := dot) as (p & T & tl & H1 & H2 & H3 & H4); try assumption.
    { repeat (apply bytes_app; split); try apply short2net_bytes. repeat constructor; lia. }
    { reflexivity. }
    { reflexivity. }
    exists p, T, tl. eexists. split; [exact H1|]. split; [exact H2|].
    cbn [do_call]. unfold rdata_srv. cbv zeta. fold m0. rewrite H3. rewrite Ho0. unfold packet_len at 1 3.
    replace ((e_out m ++ [0; 0] ++ short2net pr ++ short2net we ++ short2net po) ++ wire p ++ tl) with ((e_out m ++ [0; 0]) ++ (short2net pr ++ short2net we ++ short2net po) ++ wire p ++ tl) by (rewrite <- !app_assoc; reflexivity).
    rewrite patch2_at. cbn [e_out e_labels lead trail].
    rewrite app_nil_r. split; [rewrite <- !app_assoc; reflexivity|]. split; [reflexivity|]. split; [reflexivity|]. split; [exact H4|].
    unfold packet_len in *. rewrite Ho0 in Hs0. cbn [bytes_before] in *. rewrite !zlen_app, !zlen_short in Hs0. change (zlen [0; 0]) with 2 in Hs0. lia.
Qed.

Lemma call_plain_spec : forall m c, call_name c = None -> legal_call c ->
  exists x, e_out (do_call m c) = e_out m ++ x /\ bytes x /\ e_labels (do_call m c) = e_labels m.
Proof.
  intros m c Hc [Hl _]. destruct c; cbn [call_name] in Hc; try discriminate; cbn [do_call];
    unfold rdata_long, rdata_ipv4, rdata_ipv6, rdata_raw; cbn [put e_out e_labels].
  - eexists. rewrite <- app_assoc. split; [reflexivity|]. split; [|reflexivity]. apply bytes_app; split; [apply short2net_bytes|apply long2net_bytes].
  - eexists. rewrite <- app_assoc. split; [reflexivity|]. split; [|reflexivity]. apply bytes_app; split; [apply short2net_bytes|apply Hl].
  - eexists. rewrite <- app_assoc. split; [reflexivity|]. split; [|reflexivity]. apply bytes_app; split; [apply short2net_bytes|apply Hl].
  - eexists. rewrite <- app_assoc. split; [reflexivity|]. split; [|reflexivity]. apply bytes_app; split; [apply short2net_bytes|].
    apply firstn_Forall. apply Hl.
Qed.

Lemma do_call_app : forall m c, exists x, e_out (do_call m c) = e_out m ++ x.
Proof.
  intros m c. destruct c as [dot n0 ty cl|sec dot n0 ty cl ttl|v|a|a|dot n0|pr we po dot n0|d]; cbn [do_call].
  - unfold message_qd. cbv zeta. destruct (host_app (mkenc (e_out m) (e_labels m) ((e_qd m + 1) mod 65536) (e_an m) (e_ns m) (e_ar m) (e_ovf m)) (Some (text dot n0))) as (w & labels & ovf & E).
    rewrite E. cbn [fst put e_out]. rewrite <- !app_assoc. eexists. reflexivity.
  - destruct sec; unfold message_an, message_ns, message_ar, rrappend;
      match goal with |- context [host ?m0 ?nm] => destruct (host_app m0 nm) as (w & labels & ovf & E) end;
      rewrite E; cbn [fst put e_out]; rewrite <- !app_assoc; eexists; reflexivity.
  - unfold rdata_long. cbn [put e_out]. rewrite <- app_assoc. eexists; reflexivity.
  - unfold rdata_ipv4. cbn [put e_out]. rewrite <- app_assoc. eexists; reflexivity.
  - unfold rdata_ipv6. cbn [put e_out]. rewrite <- app_assoc. eexists; reflexivity.
  - unfold rdata_name. cbv zeta. destruct (host_app (put m [0; 0]) (Some (text dot n0))) as (w & labels & ovf & E). rewrite E. cbn [put e_out].
    unfold packet_len. rewrite patch2_at. eexists; reflexivity.
  - unfold rdata_srv. cbv zeta. match goal with |- context [host ?m0 ?nm] => destruct (host_app m0 nm) as (w & labels & ovf & E) end. rewrite E. cbn [put e_out].
    unfold packet_len. replace (((((e_out m ++ [0; 0]) ++ short2net pr) ++ short2net we) ++ short2net po) ++ w) with ((e_out m ++ [0; 0]) ++ (short2net pr ++ short2net we ++ short2net po) ++ w) by (rewrite <- !app_assoc; reflexivity).
    rewrite patch2_at. eexists; reflexivity.
  - unfold rdata_raw. cbn [put e_out]. rewrite <- app_assoc. eexists; reflexivity.
Qed.

Lemma fold_call_app : forall calls m, exists x, e_out (fold_left do_call calls m) = e_out m ++ x.
Proof.
  induction calls as [|c calls IH]; intros m; cbn [fold_left].
  - exists []. rewrite app_nil_r. reflexivity.
  - destruct (IH (do_call m c)) as [x E]. destruct (do_call_app m c) as [y E2]. rewrite E, E2, <- app_assoc. eexists; reflexivity.
Qed.

Lemma fold_call_mono : forall calls m, packet_len m <= packet_len (fold_left do_call calls m).
Proof. intros. destruct (fold_call_app calls m) as [x E]. unfold packet_len. rewrite E, zlen_app. pose proof (zlen_nonneg _ x). lia. Qed.

(* The invariant holds after any prefix of the calls. *)
Lemma run_inv : forall calls, Forall legal_call calls -> packet_len (run calls) <= 16384 ->
  exists ents, einv ents (e_out (run calls)) (call_names calls) /\ e_labels (run calls) = map en_off ents.
Proof.
  induction calls as [|c calls IH] using rev_ind; intros Hleg Hsz.
  - exists []. split; [|reflexivity]. split; [unfold run; cbn; repeat constructor; lia|]. split; [unfold run; cbn; unfold zlen; cbn; lia|constructor].
  - apply Forall_app in Hleg. destruct Hleg as [Hl Hc]. inversion Hc as [|? ? Hc1 _]; subst.
    assert (Er : run (calls ++ [c]) = do_call (run calls) c) by (unfold run; rewrite fold_left_app; reflexivity).
    rewrite Er in *.
    assert (Hm : packet_len (run calls) <= packet_len (do_call (run calls) c)) by exact (fold_call_mono [c] (run calls)).
    destruct (IH Hl ltac:(lia)) as (ents & Hinv & Hlab).
    unfold call_names. rewrite flat_map_app. fold (call_names calls). cbn [flat_map]. rewrite app_nil_r.
    destruct (call_name c) as [n|] eqn:En.
    + destruct Hc1 as [_ Hn]. rewrite En in Hn.
      destruct (call_name_spec _ _ _ _ _ Hinv Hlab En Hn Hsz) as (p & T & tl & k & H1 & H2 & H3 & _ & H4 & _ & H5).
      exists (ents ++ firstn k (new_ents (packet_len (run calls) + bytes_before c) p T)). split; [|exact H4].
      rewrite H3. rewrite app_assoc. apply einv_app; [|apply trail_bytes].
      replace (packet_len (run calls) + bytes_before c) with (zlen (e_out (run calls) ++ lead c (zlen (wire p ++ tl)))) by (rewrite zlen_app, lead_len; reflexivity).
      apply einv_host; try assumption.
      * apply einv_app; [exact Hinv|apply lead_bytes].
      * rewrite zlen_app, lead_len. exact H5.
    + destruct (call_plain_spec (run calls) c En Hc1) as (x & E1 & E2 & E3). exists ents. rewrite E1, E3, app_nil_r. split; [|exact Hlab].
      apply einv_app; assumption.
Qed.

Lemma packet_zlen : forall m id h, 12 <= packet_len m -> zlen (message_packet m id h) = packet_len m.
Proof.
  intros m id h H. unfold message_packet. cbv zeta. rewrite !zlen_app, !zlen_short, !zlen_cons, zlen_nil. unfold packet_len, zlen in *. rewrite skipn_length. lia.
Qed.

Lemma zget_skipn : forall n l i, 0 <= i -> zget (skipn n l) i = zget l (i + Z.of_nat n).
Proof.
  induction n as [|n IH]; intros l i Hi; [cbn [skipn]; f_equal; lia|].
  destruct l as [|x l].
  - rewrite skipn_nil. rewrite !zget_out by (rewrite zlen_nil; lia). reflexivity.
  - cbn [skipn]. rewrite IH by lia. rewrite zget_cons by lia. f_equal. lia.
Qed.

Lemma packet_get : forall m id h i, 12 <= i -> zget (message_packet m id h) i = zget (e_out m) i.
Proof.
  intros m id h i Hi. unfold message_packet. cbv zeta.
  rewrite !zget_app_r by (rewrite ?zlen_short, ?zlen_cons, ?zlen_nil; lia). rewrite !zlen_short, !zlen_cons, zlen_nil.
  rewrite zget_skipn by lia. f_equal. lia.
Qed.

Lemma run_ge12 : forall calls, 12 <= packet_len (run calls).
Proof. intros. pose proof (fold_call_mono calls enc_empty). exact H. Qed.

(* C03, with pointers to labels only *)
Lemma encoded_names : forall calls id h, Forall legal_call calls ->
  (forall a b, In a (call_names calls) -> In b (call_names calls) -> ~ clash a b) ->
  packet_len (run calls) <= 16384 ->
  forall pre c post n, calls = pre ++ c :: post -> call_name c = Some n ->
  name_at_simple (zget (message_packet (run calls) id h)) (packet_len (run calls)) 16384
    (packet_len (run pre) + bytes_before c) n (packet_len (run (pre ++ [c])) - bytes_after c).
Proof.
  intros calls id h Hleg Hnc Hsz pre c post n Hcalls Hn.
  assert (E1 : run calls = fold_left do_call post (do_call (run pre) c)) by (subst; unfold run; rewrite fold_left_app; reflexivity).
  assert (E2 : run (pre ++ [c]) = do_call (run pre) c) by (unfold run; rewrite fold_left_app; reflexivity).
  pose proof (fold_call_mono post (do_call (run pre) c)) as Hm. rewrite <- E1 in Hm.
  pose proof (fold_call_mono [c] (run pre)) as Hm2. cbn [fold_left] in Hm2.
  destruct (fold_call_app post (do_call (run pre) c)) as [x Ex]. rewrite <- E1 in Ex.
  assert (Hlegs : Forall legal_call pre /\ legal_call c).
  { subst calls. apply Forall_app in Hleg. destruct Hleg as [H1 H2]. inversion H2; subst. auto. }
  destruct Hlegs as [Hlp [_ Hlc]]. rewrite Hn in Hlc.
  destruct (run_inv pre Hlp ltac:(lia)) as (ents & Hinv & Hlab).
  destruct (call_name_spec _ _ _ _ _ Hinv Hlab Hn Hlc ltac:(lia)) as (p & T & tl & k & H1 & H2 & H3 & _ & H4 & _ & H5).
  rewrite E2. set (o1 := e_out (run pre) ++ lead c (zlen (wire p ++ tl))) in *.
  assert (Hlen : packet_len (do_call (run pre) c) - bytes_after c = zlen o1 + zlen (wire p ++ tl)).
  { unfold packet_len. rewrite H3, !zlen_app, trail_len. lia. }
  assert (Ho1 : packet_len (run pre) + bytes_before c = zlen o1) by (unfold o1; rewrite zlen_app, lead_len; reflexivity).
  rewrite Hlen, Ho1.
  assert (0 <= bytes_after c) by (destruct c; cbn; lia).
  apply host_denotes with (ents := ents) (names := call_names pre) (p := p) (T := T) (tl := tl); try assumption; try lia.
  - apply einv_app; [exact Hinv|apply lead_bytes].
  - rewrite Forall_forall. intros n' Hn'. apply Hnc.
    + subst calls. unfold call_names. apply in_flat_map. exists c. split; [apply in_or_app; right; left; reflexivity|]. rewrite Hn. left; reflexivity.
    + subst calls. unfold call_names in *. rewrite flat_map_app. apply in_or_app. left. exact Hn'.
  - intros i Hi. rewrite packet_get by lia. rewrite Ex, H3.
    replace ((o1 ++ (wire p ++ tl) ++ trail c) ++ x) with ((o1 ++ wire p ++ tl) ++ trail c ++ x) by (rewrite <- !app_assoc; reflexivity).
    apply zget_app_l. rewrite zlen_app. lia.
  - intros e He _. destruct Hinv as (_ & _ & HF). rewrite Forall_forall in HF. pose proof (HF e He) as (_ & _ & _ & _ & Hlt & _).
    pose proof (zlen_nonneg _ (wire (en_lit e))). pose proof (run_ge12 pre). fold (packet_len (run pre)) in Hlt. lia.
Qed.
