(* Supporting proofs for PropHear.v: sent messages parse back. *)
From Coq Require Import Sorted.
From Verif Require Import Base Lemmas SpecDns Wire WireSafe WireNames WireCalls WireCallsSpec WireRound WireSize WireTight Rec Qry Out In Api RecInv RecSafe OutSafe OutProbe OutExtra QryLoop OutAll OutSpec DaemonInv ParseWf SpecDaemon FactsCalls FactsItems FactsOut FactsDrain Step SpecStep SpecHear FactsStep.

(* A message is its items *)
Definition unitem (i : item) : list mcall := match i with IQuestion n ty cl => [MQd n ty cl] | IRecord sec n ty cl ttl l => MRr sec n ty cl ttl :: l end.
Definition whole_item (i : item) : Prop := match i with IQuestion _ _ _ => True | IRecord _ _ _ _ _ l => Forall is_data l end.
Definition shaped (l : list mcall) : Prop := exists its, l = flat_map unitem its /\ Forall whole_item its.

Lemma shaped_join : forall a b, shaped a -> shaped b -> shaped (a ++ b).
Proof. intros a b (x & -> & X) (y & -> & Y). exists (x ++ y). rewrite flat_map_app, Forall_app. auto. Qed.
Lemma shaped_nil : shaped [].
Proof. exists []. split; [reflexivity|constructor]. Qed.
Lemma shaped_at : forall A (f : A -> list mcall) l, (forall x, shaped (f x)) -> shaped (flat_map f l).
Proof. intros A f l H. induction l as [|x l IH]; [apply shaped_nil|]. cbn [flat_map]. apply shaped_join; [apply H|exact IH]. Qed.
Lemma shaped_q : forall n ty cl, shaped [MQd n ty cl].
Proof. intros n ty cl. exists [IQuestion n ty cl]. split; [reflexivity|repeat constructor]. Qed.
Lemma shaped_rr : forall sec n ty cl ttl l, Forall is_data l -> shaped (MRr sec n ty cl ttl :: l).
Proof. intros sec n ty cl ttl l F. exists [IRecord sec n ty cl ttl l]. split; [cbn [flat_map unitem]; rewrite app_nil_r; reflexivity|constructor; [exact F|constructor]]. Qed.

Lemma shaped_items : forall l, shaped l -> l = flat_map unitem (items l).
Proof.
  intros l (its & -> & F). cut (items (flat_map unitem its) = its /\ data_calls (flat_map unitem its) = []); [intros [-> _]; reflexivity|].
  induction F as [|i its Hi F [IH1 IH2]]; [split; reflexivity|]. cbn [flat_map]. destruct i as [n ty cl|sec n ty cl ttl l]; cbn [unitem app items data_calls].
  - rewrite IH1. split; reflexivity.
  - cbn [whole_item] in Hi. rewrite data_calls_app, items_data by exact Hi. rewrite IH1, IH2, app_nil_r. split; reflexivity.
Qed.

Lemma out_shaped : forall d e qs d' m n qs', outcome d e qs d' m n qs' -> shaped (o_calls m).
Proof.
  intros d e qs d' m n qs' O.
  assert (Hc : forall cls h l, shaped (calls_of cls h l)).
  { intros cls h l. unfold calls_of. apply shaped_at. intros x. unfold at_rec. destruct (h x); [apply shaped_rr, a_copy_data|apply shaped_nil]. }
  assert (He : forall cls h l, shaped (extras cls h l)).
  { intros cls h l. unfold extras. apply shaped_at. intros x. unfold at_rec. destruct (h x); [apply shaped_rr, a_copy_data|apply shaped_nil]. }
  destruct O as [u us X added Eu EX G|N restN P restP s' Eu Sd E1 E2 Dp A Ua Cf Bl|N restN P restP A restA s' added all seen Eu Sd D Eall Nall Eseen Af Ua Tp Tb Cf Tq G|N restN A restA s' l Eu Sd D E1 E2 El La Af Ua Cf Tp Tb Tq|N restN A restA s' q1 q' l m ret T V Eu Sd D E1 E2 El La Af Ua Cf Tp Tb Tq QO Ql Sh Zq Uq CK TO G]; cbn [o_calls].
  - apply shaped_join; [|apply He]. unfold uni_calls. apply (shaped_join [_]); [apply shaped_q|apply shaped_rr, a_copy_data].
  - apply Hc.
  - apply shaped_join; [apply Hc|apply He].
  - apply shaped_join; unfold OutProbe.asks; apply shaped_at; intros x; unfold at_rec; destruct (hp (R d) x) as [Y|]; try apply shaped_nil; unfold ask_calls, tell_calls; destruct (probed Y); try apply shaped_nil; first [apply shaped_q|apply shaped_rr, a_copy_data].
  - unfold queries_out in QO. destruct (_ && _); [|destruct QO as (-> & _); apply shaped_nil]. destruct QO as (_ & (ks & -> & _) & _). apply shaped_join.
    + induction (filter _ _) as [|q l' IH]; [apply shaped_nil|]. cbn [map]. apply (shaped_join [_]); [apply shaped_q|exact IH].
    + apply shaped_at. intros k. apply shaped_rr, a_copy_data.
Qed.

(* Sorted sections *)
Definition in_section (k : nat) (l : list item) : list item := filter (fun i => Nat.eqb (section_of i) k) l.
Lemma sections_split : forall l, Sorted le (map section_of l) -> l = in_section 0 l ++ in_section 1 l ++ in_section 2 l ++ in_section 3 l.
Proof.
  assert (Low : forall l k, Forall (fun i => (k <= section_of i)%nat) l -> forall j, (j < k)%nat -> in_section j l = []).
  { intros l k F j Hj. unfold in_section. induction F as [|i l Hi F IH]; [reflexivity|]. cbn [filter]. destruct (Nat.eqb_spec (section_of i) j); [lia|exact IH]. }
  induction l as [|i l IH]; intros S; [reflexivity|]. cbn [map] in S. pose proof S as S'. apply Sorted_inv in S' as [S' _]. specialize (IH S').
  apply Sorted_StronglySorted in S; [|intros a b c; lia]. apply StronglySorted_inv in S as [_ F]. assert (F' : Forall (fun j => (section_of i <= section_of j)%nat) l) by (rewrite Forall_forall in *; intros j I; apply F; apply in_map; exact I).
  pose proof (Low l (section_of i) F') as Z. unfold in_section in *. cbn [filter].
  assert (R : (section_of i <= 3)%nat) by (destruct i as [n ty cl|[] n ty cl ttl dt]; cbn [section_of]; lia).
  destruct (section_of i) as [|[|[|[|k]]]]; cbn [Nat.eqb]; [..|lia].
  - cbn [app]. f_equal. exact IH.
  - rewrite (Z 0%nat) in * by lia. cbn [app] in *. f_equal. exact IH.
  - rewrite (Z 0%nat), (Z 1%nat) in * by lia. cbn [app] in *. f_equal. exact IH.
  - rewrite (Z 0%nat), (Z 1%nat), (Z 2%nat) in * by lia. cbn [app] in *. f_equal. exact IH.
Qed.

(* The DNS records behind the items of a section *)
Definition sect_of (k : nat) : sect := match k with 2%nat => SNs | 3%nat => SAr | _ => SAn end.
Lemma section_records : forall tld k l, (1 <= k <= 3)%nat -> (forall i, In i l -> sound_item tld i) ->
  exists rs, in_section k l = map (item_of (sect_of k)) rs /\ Forall legal_rr rs /\ (forall n, In n (flat_map rr_names rs) -> legal_name n /\ ends_only_in tld n).
Proof.
  intros tld k l Hk. induction l as [|i l IH]; intros F; [exists []; split; [reflexivity|split; [constructor|intros n []]]|].
  destruct (IH (fun j J => F j (or_intror J))) as (rs & E & L & N). unfold in_section in *. cbn [filter]. destruct (Nat.eqb_spec (section_of i) k) as [Ei|Ei]; [|exists rs; auto].
  destruct (F i (or_introl eq_refl)) as [(q & -> & _)|(sec & r & -> & Lr & Nr)]; [cbn [section_of] in Ei; lia|].
  exists (r :: rs). split; [|split; [constructor; assumption|intros n I; cbn [flat_map] in I; apply in_app_or in I as [I|I]; auto]]. cbn [map]. rewrite E. f_equal. unfold item_of in *. cbn [section_of] in Ei. subst k. destruct sec; reflexivity.
Qed.
Lemma section_questions : forall tld l, (forall i, In i l -> sound_item tld i) ->
  exists qs, in_section 0 l = map (fun q => IQuestion (dotted (qname q)) (qtype q) (qclass q)) qs /\ Forall legal_quest qs /\ (forall n, In n (map qname qs) -> legal_name n /\ ends_only_in tld n).
Proof.
  intros tld l. induction l as [|i l IH]; intros F; [exists []; split; [reflexivity|split; [constructor|intros n []]]|].
  destruct (IH (fun j J => F j (or_intror J))) as (qs & E & L & N). unfold in_section in *. cbn [filter]. destruct (Nat.eqb_spec (section_of i) 0) as [Ei|Ei]; [|exists qs; auto].
  destruct (F i (or_introl eq_refl)) as [(q & -> & Lq & Nq & Tq)|(sec & r & -> & Lr & Nr)]; [|destruct sec; discriminate Ei].
  exists (q :: qs). split; [cbn [map]; rewrite E; reflexivity|]. split; [constructor; assumption|]. intros n [<-|I]; auto.
Qed.

(* The calls of 1035.c *)
Lemma fold_app_calls : forall l1 l2 m, fold_left do_mcall (l1 ++ l2) m = fold_left do_mcall l2 (fold_left do_mcall l1 m).
Proof. intros. apply fold_left_app. Qed.
Definition csec (k : sect) : section := match k with SAn => An | SNs => Ns | SAr => Ar end.
Lemma rr_encode : forall sec rs m, fold_left do_mcall (flat_map unitem (map (item_of sec) rs)) m = fold_left do_call (flat_map (rr_calls (csec sec)) rs) m.
Proof.
  intros sec rs. induction rs as [|r rs IH]; intros m; [reflexivity|]. cbn [map flat_map]. rewrite !fold_left_app. rewrite IH. f_equal. unfold item_of, rr_calls. cbn [unitem fold_left]. destruct sec, (data r); reflexivity.
Qed.
Lemma qd_encode : forall qs m, fold_left do_mcall (flat_map unitem (map (fun q => IQuestion (dotted (qname q)) (qtype q) (qclass q)) qs)) m = fold_left do_call (map quest_call qs) m.
Proof. intros qs. induction qs as [|q qs IH]; intros m; [reflexivity|]. cbn [map flat_map unitem app fold_left]. rewrite IH. reflexivity. Qed.

(* Sizes *)
Lemma sum_cat : forall a b, sum (a ++ b) = sum a + sum b.
Proof. induction a as [|x a IH]; intros b; [reflexivity|]. cbn [app sum fold_right] in *. fold (sum (a ++ b)). fold (sum a). rewrite IH. lia. Qed.
Lemma records_size : forall sec rs, Forall legal_rr rs -> sum (map item_size (map (item_of sec) rs)) = sum (map rr_wire_size rs).
Proof.
  intros sec rs F. induction F as [|r rs Lr F IH]; [reflexivity|]. cbn [map sum fold_right]. unfold sum in IH. rewrite IH. f_equal. unfold item_of, rr_wire_size, item_size, data_size, name_size.
  destruct Lr as (_ & _ & _ & Df). unfold data_fits in Df. destruct (data r) as [ip|ip|dd|n|p w q n]; cbn [data_of]; unfold len, zlen in *; lia.
Qed.
Lemma questions_size : forall qs, sum (map item_size (map (fun q => IQuestion (dotted (qname q)) (qtype q) (qclass q)) qs)) = sum (map quest_wire_size qs).
Proof. induction qs as [|q qs IH]; [reflexivity|]. cbn [map sum fold_right]. unfold sum in IH. rewrite IH. f_equal. unfold quest_wire_size, name_size, item_size, len, zlen. lia. Qed.

(* What is heard *)
Definition snum (sec : sect) : nat := match sec with SAn => 1%nat | SNs => 2%nat | SAr => 3%nat end.
Lemma heard_other : forall k sec rs, snum sec <> k -> flat_map (heard_record k) (map (item_of sec) rs) = [].
Proof.
  intros k sec rs Nk. apply Nat.eqb_neq in Nk. induction rs as [|r rs IH]; [reflexivity|]. cbn [map flat_map]. rewrite IH, app_nil_r. unfold item_of. cbn [heard_record]. 
  replace (section_of _) with (snum sec) by (destruct sec; reflexivity). rewrite Nk. reflexivity.
Qed.
Lemma heard_these : forall sec rs, Forall legal_rr rs -> flat_map (heard_record (snum sec)) (map (item_of sec) rs) = map parsed_rr rs.
Proof.
  intros sec rs F. induction F as [|r rs Lr F IH]; [reflexivity|]. cbn [map flat_map]. rewrite IH. unfold item_of at 1. cbn [heard_record].
  replace (section_of _) with (snum sec) by (destruct sec; reflexivity). rewrite Nat.eqb_refl. cbn [app]. f_equal.
  unfold parsed_rr. destruct Lr as (_ & _ & _ & Df). unfold data_fits in Df. destruct (data r) as [ip|ip|dd|n|p w q n]; cbn [data_of heard_data fst snd parsed_rdata parsed_known raw_size]; try reflexivity; destruct Df as (T & Ln & _); change (len ip) with (zlen ip) in Ln; rewrite Ln; reflexivity.
Qed.
Lemma heard_questions : forall qs, flat_map heard_question (map (fun q => IQuestion (dotted (qname q)) (qtype q) (qclass q)) qs) = map parsed_quest qs.
Proof. induction qs as [|q qs IH]; [reflexivity|]. cbn [map flat_map heard_question app]. rewrite IH. reflexivity. Qed.
Lemma heard_no_questions : forall sec rs, flat_map heard_question (map (item_of sec) rs) = [].
Proof. intros sec rs. induction rs as [|r rs IH]; [reflexivity|]. cbn [map flat_map]. rewrite IH. reflexivity. Qed.
Lemma heard_no_records : forall k qs, flat_map (heard_record k) (map (fun q => IQuestion (dotted (qname q)) (qtype q) (qclass q)) qs) = [].
Proof. intros k qs. induction qs as [|q qs IH]; [reflexivity|]. cbn [map flat_map]. rewrite IH. reflexivity. Qed.

Lemma header_len : forall m id h, 12 <= packet_len m -> zlen (message_packet m id h) = packet_len m.
Proof.
  intros m id h L. unfold message_packet. rewrite !zlen_app, !zlen_short. unfold packet_len, zlen in *. cbn [length]. rewrite skipn_length. lia.
Qed.

Lemma message_heard : forall d e d' m n tld, reach d -> legal d e OOut -> step d e OOut = Ok (d', RMsg m n) -> sendable tld m ->
  bytes (snd (packet_of m)) /\ 0 < zlen (snd (packet_of m)) <= 4096 /\
  forall b, bytebuf b -> zlen (snd (packet_of m)) <= b_size b -> (forall i, 0 <= i < zlen (snd (packet_of m)) -> b_at b i = zget (snd (packet_of m)) i) ->
  exists s p, message_parse b MSG_BLOCK = Ok (heard m, s, p).
Proof.
  intros d e d' m n tld K L E (Uid & Snd & Sz). unfold small_enough in Sz. destruct (message_sections d e d' m n K L E) as (Srt & _). destruct (reach_dinv d K) as (qs0 & H & C). destruct (out_given d e d' m n qs0 H C L E) as (qs' & O & _).
  pose proof (shaped_items _ (out_shaped _ _ _ _ _ _ _ O)) as W.
  set (l := items (o_calls m)) in *. pose proof (sections_split l Srt) as Sp.
  destruct (section_questions tld l Snd) as (qs & Eq & Lq & Nq). destruct (section_records tld 1 l ltac:(lia) Snd) as (an & Ea & La & Na). destruct (section_records tld 2 l ltac:(lia) Snd) as (ns & En & Ln & Nn). destruct (section_records tld 3 l ltac:(lia) Snd) as (ar & Er & Lr & Nr).
  rewrite Eq, Ea, En, Er in Sp. cbn [sect_of] in *.
  assert (Enc : encode (o_calls m) = run (message_calls qs an ns ar)).
  { unfold encode, run. rewrite W, Sp. unfold message_calls. rewrite !flat_map_app, !fold_left_app. rewrite qd_encode, !rr_encode. reflexivity. }
  assert (Lrr : Forall legal_rr (an ++ ns ++ ar)) by (rewrite !Forall_app; auto).
  assert (Nms : forall x, In x (map qname qs ++ flat_map rr_names (an ++ ns ++ ar)) -> legal_name x /\ ends_only_in tld x).
  { intros x I. rewrite !flat_map_app in I. repeat (apply in_app_or in I as [I|I]); auto. }
  assert (P12 : 12 <= packet_len (run (message_calls qs an ns ar))) by (unfold run; pose proof (fold_call_mono (message_calls qs an ns ar) enc_empty) as M; change (packet_len enc_empty) with 12 in M; exact M).
  assert (PL : zlen (snd (packet_of m)) = packet_len (run (message_calls qs an ns ar))) by (unfold packet_of; cbn [snd]; rewrite Enc; apply header_len; exact P12).
  assert (Hh : legal_header (out_header m)) by (unfold out_header; destruct (o_qr m); unfold legal_header, bit; cbn [h_qr h_opcode h_aa h_tc h_rd h_ra h_z h_rcode]; lia).
  destruct (message_calls_legal qs an ns ar Lrr (fun x I => proj1 (Nms x I))) as [Hleg Hsum]. pose proof (fold_len _ enc_empty Hleg) as Hl. fold (run (message_calls qs an ns ar)) in Hl. change (packet_len enc_empty) with 12 in Hl.
  assert (Sm : packet_len (run (message_calls qs an ns ar)) <= 4096 /\ forall b, bytebuf b -> packet_len (run (message_calls qs an ns ar)) <= b_size b -> (forall i, 0 <= i < packet_len (run (message_calls qs an ns ar)) -> b_at b i = zget (message_packet (run (message_calls qs an ns ar)) (o_id m) (out_header m)) i) ->
    exists s, message_parse b MSG_BLOCK = Ok (mkmessage (o_id m) (out_header m) (map parsed_quest qs) (map parsed_rr an) (map parsed_rr ns) (map parsed_rr ar), s, packet_len (run (message_calls qs an ns ar)))).
  { destruct Sz as [Sz|[Sz Raw]].
    - assert (Ws : wire_size qs (an ++ ns ++ ar) <= 4096) by (unfold wire_size; rewrite Sp in Sz; rewrite !map_app, !sum_cat in *; rewrite questions_size, !records_size in Sz by assumption; lia).
      split; [lia|]. intros b Hb Hs Hat. exact (message_roundtrip_small tld qs an ns ar (o_id m) (out_header m) b MSG_BLOCK Lq Lrr Nms Ws Uid Hh Hb Hs ltac:(unfold MSG_BLOCK; lia) Hat).
    - rewrite PL in Sz. split; [lia|]. intros b Hb Hs Hat. apply (message_roundtrip_tight tld qs an ns ar (o_id m) (out_header m) b MSG_BLOCK Lq Lrr Nms Sz); [|exact Uid|exact Hh|exact Hb|exact Hs|unfold MSG_BLOCK; lia|exact Hat].
      intros r dt I Ed. rewrite len_zlen.
      assert (G : forall sec rs, In r rs -> (forall i, In i (map (item_of sec) rs) -> In i l) -> zlen dt <= 2660).
      { intros sec rs Ir Il. apply (Raw sec (dotted (owner r)) (rtype r) (rclass r) (rttl r) dt). unfold says. fold l. replace (IRecord sec (dotted (owner r)) (rtype r) (rclass r) (rttl r) [MRaw dt]) with (item_of sec r) by (unfold item_of; rewrite Ed; reflexivity). apply Il. apply in_map. exact Ir. }
      rewrite Sp in G. apply in_app_or in I as [I|I]; [apply (G SAn an I)|apply in_app_or in I as [I|I]; [apply (G SNs ns I)|apply (G SAr ar I)]]; intros i J; rewrite !in_app_iff; tauto. }
  destruct Sm as [Sm Pr]. split; [|split].
  - destruct (run_inv (message_calls qs an ns ar) Hleg ltac:(lia)) as (ents & (By & _) & _). unfold packet_of. cbn [snd]. rewrite Enc. unfold message_packet. cbv zeta.
    destruct (header_round (out_header m) Hh) as (_ & F0 & F1). repeat (apply bytes_app; split); try apply short2net_bytes.
    + constructor; [exact F0|constructor; [exact F1|constructor]].
    + unfold bytes in *. rewrite Forall_forall in *. intros x I. apply By. rewrite <- (firstn_skipn 12). apply in_or_app. right. exact I.
  - rewrite PL. lia.
  - intros b Hb Hs Hat. rewrite PL in *. destruct (Pr b Hb Hs) as (s & Ep).
    + intros i Hi. rewrite (Hat i Hi). unfold packet_of. cbn [snd]. rewrite Enc. reflexivity.
    + exists s, (packet_len (run (message_calls qs an ns ar))). rewrite Ep. f_equal. f_equal. f_equal. unfold heard. replace (heard_header m) with (out_header m) by (unfold heard_header, out_header; destruct (o_qr m); reflexivity). fold l. rewrite Sp. rewrite !flat_map_app.
      rewrite heard_questions, !heard_no_questions, !heard_no_records.
      pose proof (heard_these SAn an La) as X1. pose proof (heard_these SNs ns Ln) as X2. pose proof (heard_these SAr ar Lr) as X3. cbn [snum] in X1, X2, X3. rewrite X1, X2, X3. rewrite !heard_other by discriminate. rewrite !app_nil_r. reflexivity.
Qed.

(* The packet on its own, and as a datagram *)
Lemma packet_own : forall d e d' m n tld, reach d -> legal d e OOut -> step d e OOut = Ok (d', RMsg m n) -> sendable tld m ->
  (exists s p, message_parse (mkbuffer (zlen (snd (packet_of m))) (zget (snd (packet_of m)))) MSG_BLOCK = Ok (heard m, s, p)) /\ self_contained (snd (packet_of m)) /\ wf_message (heard m).
Proof.
  intros d e d' m n tld K L E S. destruct (message_heard d e d' m n tld K L E S) as (By & Sz & P).
  assert (Bb : bytebuf (mkbuffer (zlen (snd (packet_of m))) (zget (snd (packet_of m))))).
  { intros o. cbn [b_at]. unfold zget. destruct (_ && _); [|unfold is_byte; lia]. destruct (nth_in_or_default (Z.to_nat o) (snd (packet_of m)) 0) as [I| ->]; [|unfold is_byte; lia]. unfold bytes in By. rewrite Forall_forall in By. apply By. exact I. }
  destruct (P _ Bb) as (s & p & Ep); [cbn [b_size]; lia|intros i Hi; reflexivity|].
  split; [exists s, p; exact Ep|]. split.
  - split; [unfold MAX_PACKET_LEN; lia|]. intros o. rewrite Ep. discriminate.
  - exact (message_parse_wf _ _ _ _ _ Bb Ep).
Qed.

Lemma packet_delivered : forall d e d' m n tld, reach d -> legal d e OOut -> step d e OOut = Ok (d', RMsg m n) -> sendable tld m ->
  forall d2 e2 from, process_in d2 [(e2, Datagram (snd (packet_of m)) from)] = bind (mdnsd_in d2 e2 (heard m) from) (fun x => Ok (fst x, 0)).
Proof.
  intros d e d' m n tld K L E S d2 e2 from. destruct (packet_own d e d' m n tld K L E S) as ((s & p & Ep) & Sc & _). rewrite (receive_own _ _ _ _ Sc). unfold handle. rewrite Ep.
  destruct (mdnsd_in d2 e2 (heard m) from) as [[x y]| | |]; reflexivity.
Qed.
