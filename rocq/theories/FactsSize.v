(* How large the messages of mdnsd_out get. *)
From Verif Require Import Base Lemmas Wire WireCallsSpec WireSize Rec Qry Out In Api RecInv RecSafe RecOps RecAddr OutSafe OutPub OutProbe OutExtra OutAll OutSpec QryInv QryOps CacheOps QryLoop SpecDaemon FactsEvolve.

(* ------------------------------------------------------------------ *)
(* Any name, well formed or not *)

Lemma mklabel_len : forall name lab last lab' last', 1 <= zlen lab <= 255 -> mklabel name lab last = Some (lab', last') ->
  zlen lab' <= 255 /\ zlen lab <= zlen lab' <= zlen lab + zlen name.
Proof.
  induction name as [|c rest IH]; intros lab last lab' last' B E; cbn [mklabel] in E.
  - injection E as <- <-. rewrite zlen_nil. lia.
  - rewrite zlen_cons. pose proof (zlen_nonneg _ rest) as Zr. destruct (_ && _); [injection E as <- <-; lia|].
    destruct (c =? 46); cbv beta iota zeta in E; (destruct (zlen lab =? 255) eqn:D; [discriminate|]); apply IH in E; rewrite ?zlen_app, ?zlen_cons, ?zlen_nil, ?zlen_upd in *; lia.
Qed.
Lemma finlabel_len : forall lab last, 1 <= zlen lab -> 1 <= zlen (finlabel lab last) <= zlen lab + 1 /\ zget (finlabel lab last) (zlen (finlabel lab last) - 1) = 0.
Proof.
  intros lab last B. unfold finlabel. cbv zeta. destruct (zlen lab =? 1) eqn:D; [split; [rewrite zlen_cons, zlen_nil; lia|reflexivity]|].
  rewrite zlen_app, zlen_cons, zlen_nil, zlen_upd. split; [lia|]. replace (zlen lab + (1 + 0) - 1) with (zlen (upd lab (Z.to_nat last) ((zlen lab - (last + 1)) mod 256))) by (rewrite zlen_upd; lia).
  rewrite zget_app_r by lia. rewrite Z.sub_diag. reflexivity.
Qed.

Lemma host_any : forall m name, let n := snd (host m name) in
  packet_len (fst (host m name)) = packet_len m + n /\ 0 <= n <= 256 /\ n <= match name with Some s => zlen s + 2 | None => 0 end /\
  (e_ovf (fst (host m name)) = true -> e_ovf m = true \/ MAX_PACKET_LEN < packet_len m + n).
Proof.
  intros m name. cbv zeta. unfold host. destruct name as [name|]; [|cbn [fst snd]; repeat split; try lia; auto].
  pose proof (zlen_nonneg _ name) as Zn. destruct (mklabel name [0] 0) as [[lab last]|] eqn:E; [|cbn [fst snd]; repeat split; try lia; auto].
  apply mklabel_len in E as [E1 E2]; [|rewrite zlen_cons, zlen_nil; lia]. rewrite zlen_cons, zlen_nil in E2. cbv zeta. cbn [fst snd].
  destruct (finlabel_len lab last ltac:(lia)) as [F1 F2]. pose proof (compress_len LABEL_FUEL (finlabel lab last) (e_out m) (packet_len m) 0 (e_labels m) F2) as C.
  set (w := compress _ _ _ _ _ _) in *. split; [unfold packet_len; cbn [put e_out]; apply zlen_app|]. pose proof (zlen_nonneg _ w). split; [lia|]. split; [lia|].
  cbn [put e_ovf]. intros O. apply orb_true_iff in O as [O|O]; [left; exact O|right]. lia.
Qed.

(* ------------------------------------------------------------------ *)
(* What one call may add *)

Definition mcall_size (c : mcall) : Z :=
  match c with
  | MQd n _ _ => Z.min 256 (zlen n + 2) + 4
  | MRr _ n _ _ _ => Z.min 256 (zlen n + 2) + 8
  | MIp4 a | MIp6 a => 2 + zlen a
  | MName n => 2 + (zlen n + 2)
  | MSrv _ _ _ n => 8 + match n with Some n => zlen n + 2 | None => 0 end
  | MRaw d => 2 + zlen d
  end.

Lemma packet_counts : forall m a b c d, packet_len (mkenc (e_out m) (e_labels m) a b c d (e_ovf m)) = packet_len m.
Proof. reflexivity. Qed.
Lemma patch_ovf : forall m o v, e_ovf (patch2 m o v) = e_ovf m.
Proof. intros. unfold patch2. rewrite short2net_val. reflexivity. Qed.
Lemma put_ovf : forall m l, e_ovf (put m l) = true -> e_ovf m = true \/ MAX_PACKET_LEN < packet_len m + zlen l.
Proof. intros m l E. cbn [put e_ovf] in E. apply orb_true_iff in E as [E|E]; [auto|right; lia]. Qed.

Lemma do_mcall_len : forall m c, packet_len m <= packet_len (do_mcall m c) <= packet_len m + mcall_size c /\
  (e_ovf (do_mcall m c) = true -> e_ovf m = true \/ MAX_PACKET_LEN < packet_len (do_mcall m c)).
Proof.
  intros m c.
  assert (RR : forall (m : enc) n ty cl ttl, packet_len m <= packet_len (rrappend m (Some n) ty cl ttl) <= packet_len m + (Z.min 256 (zlen n + 2) + 8) /\
    (e_ovf (rrappend m (Some n) ty cl ttl) = true -> e_ovf m = true \/ MAX_PACKET_LEN < packet_len (rrappend m (Some n) ty cl ttl))).
  { clear. intros m n ty cl ttl. unfold rrappend. destruct (host_any m (Some n)) as (H1 & H2 & H3 & H4). destruct (host m (Some n)) as [m1 k]. cbn [fst snd] in *.
    rewrite !packet_put, ?zlen_short, ?zlen_long. split; [lia|]. intros O. apply put_ovf in O as [O|O]; [|right; rewrite !packet_put, ?zlen_short, ?zlen_long in O; lia].
    apply put_ovf in O as [O|O]; [|right; rewrite !packet_put, ?zlen_short, ?zlen_long in O; lia]. apply put_ovf in O as [O|O]; [|right; rewrite ?zlen_short in O; lia].
    destruct (H4 O) as [K|K]; [auto|right; lia]. }
  destruct c as [n ty cl|sec n ty cl ttl|a|a|n|p w q n|dt]; cbn [mcall_size].
  - cbn [do_mcall]. unfold message_qd. cbv zeta. set (m0 := mkenc _ _ _ _ _ _ _). destruct (host_any m0 (Some n)) as (H1 & H2 & H3 & H4). destruct (host m0 (Some n)) as [m1 k]. cbn [fst snd] in *.
    change (packet_len m0) with (packet_len m) in *. change (e_ovf m0) with (e_ovf m) in *. rewrite !packet_put, ?zlen_short. split; [lia|].
    intros O. apply put_ovf in O as [O|O]; [|right; rewrite !packet_put, ?zlen_short in O; lia]. apply put_ovf in O as [O|O]; [|right; rewrite ?zlen_short in O; lia]. destruct (H4 O) as [K|K]; [auto|right; lia].
  - destruct sec; cbn [do_mcall]; unfold message_an, message_ns, message_ar; match goal with |- context [rrappend ?m0 _ _ _ _] => pose proof (RR m0 n ty cl ttl) as K end; exact K.
  - cbn [do_mcall]. unfold rdata_ipv4. rewrite !packet_put, zlen_short. pose proof (zlen_nonneg _ a). split; [lia|].
    intros O. apply put_ovf in O as [O|O]; [|right; rewrite !packet_put, ?zlen_short in O; lia]. apply put_ovf in O as [O|O]; [auto|right; rewrite ?zlen_short in O; lia].
  - cbn [do_mcall]. unfold rdata_ipv6. rewrite !packet_put, zlen_short. pose proof (zlen_nonneg _ a). split; [lia|].
    intros O. apply put_ovf in O as [O|O]; [|right; rewrite !packet_put, ?zlen_short in O; lia]. apply put_ovf in O as [O|O]; [auto|right; rewrite ?zlen_short in O; lia].
  - cbn [do_mcall]. unfold rdata_name. cbv zeta. destruct (host_any (put m [0; 0]) (Some n)) as (H1 & H2 & H3 & H4). destruct (host (put m [0; 0]) (Some n)) as [m1 k]. cbn [fst snd] in *.
    rewrite packet_patch, patch_ovf. rewrite packet_put in *. change (zlen [0; 0]) with 2 in *. split; [lia|]. intros O. destruct (H4 O) as [K|K]; [|right; lia].
    apply put_ovf in K as [K|K]; [auto|right]. change (zlen [0; 0]) with 2 in K. lia.
  - cbn [do_mcall]. unfold rdata_srv. cbv zeta. set (m0 := put _ (short2net q)). destruct (host_any m0 n) as (H1 & H2 & H3 & H4). destruct (host m0 n) as [m1 k]. cbn [fst snd] in *.
    assert (L : packet_len m0 = packet_len m + 8) by (unfold m0; rewrite !packet_put, !zlen_short; change (zlen [0; 0]) with 2; lia). rewrite packet_patch, patch_ovf. split; [lia|].
    intros O. destruct (H4 O) as [K|K]; [|right; lia]. unfold m0 in K. apply put_ovf in K as [K|K]; [|right; rewrite !packet_put, ?zlen_short in K; change (zlen [0; 0]) with 2 in K; lia].
    apply put_ovf in K as [K|K]; [|right; rewrite !packet_put, ?zlen_short in K; change (zlen [0; 0]) with 2 in K; lia].
    apply put_ovf in K as [K|K]; [|right; rewrite !packet_put, ?zlen_short in K; change (zlen [0; 0]) with 2 in K; lia].
    apply put_ovf in K as [K|K]; [auto|right]. change (zlen [0; 0]) with 2 in K. lia.
  - cbn [do_mcall]. unfold rdata_raw. cbv zeta. pose proof (zlen_nonneg _ dt) as Zd. set (n := if 4096 <? packet_len m + zlen dt then 0 else zlen dt).
    assert (B : 0 <= n <= zlen dt) by (unfold n; destruct (_ <? _); lia). assert (L : zlen (firstn (Z.to_nat n) dt) = n) by (unfold zlen at 1; rewrite firstn_length; unfold zlen in B; lia).
    rewrite !packet_put, zlen_short, L. split; [lia|]. intros O. apply put_ovf in O as [O|O]; [|right; rewrite !packet_put, ?zlen_short in O; lia]. apply put_ovf in O as [O|O]; [auto|right; rewrite ?zlen_short in O; lia].
Qed.

Definition mcalls_size (l : list mcall) : Z := fold_right Z.add 0 (map mcall_size l).
Lemma mcalls_size_app : forall a b, mcalls_size (a ++ b) = mcalls_size a + mcalls_size b.
Proof. intros a b. unfold mcalls_size. induction a as [|c a IH]; [reflexivity|]. cbn [app map fold_right]. rewrite IH. lia. Qed.

Lemma fold_mcall : forall l m, packet_len m <= packet_len (fold_left do_mcall l m) <= packet_len m + mcalls_size l /\
  (e_ovf (fold_left do_mcall l m) = true -> e_ovf m = true \/ MAX_PACKET_LEN < packet_len (fold_left do_mcall l m)).
Proof.
  induction l as [|c l IH]; intros m; cbn [fold_left]; [unfold mcalls_size; cbn [map fold_right]; split; [lia|auto]|].
  destruct (do_mcall_len m c) as [D1 D2]. destruct (IH (do_mcall m c)) as [I1 I2]. unfold mcalls_size in *. cbn [map fold_right]. split; [lia|]. intros O. destruct (I2 O) as [K|K]; [|auto]. destruct (D2 K) as [J|J]; [auto|right; lia].
Qed.
Lemma mlen_app : forall m l, mlen m <= mlen (m ++ l) <= mlen m + mcalls_size l.
Proof. intros m l. unfold mlen, encode. rewrite fold_left_app. apply fold_mcall. Qed.
Lemma mlen_nil : mlen [] = 12.
Proof. reflexivity. Qed.
Lemma mlen_upper : forall l, 12 <= mlen l <= 12 + mcalls_size l.
Proof. intros l. pose proof (mlen_app [] l) as H. rewrite mlen_nil in H. exact H. Qed.
(* A store past the buffer happens only if the message is longer than it. *)
Lemma no_overflow : forall l, mlen l <= MAX_PACKET_LEN -> e_ovf (encode l) = false.
Proof.
  intros l H. destruct (e_ovf (encode l)) eqn:E; [|reflexivity]. exfalso. destruct (fold_mcall l enc_empty) as [_ K]. destruct (K E) as [J|J]; [discriminate|]. unfold mlen, encode in H. lia.
Qed.

(* ------------------------------------------------------------------ *)
(* One record *)

(* struct in_addr and struct in6_addr *)
Definition sized (a : answer) : Prop := zlen (a_ip a) = 4 /\ zlen (a_ip6 a) = 16.
Definition hsized (h : heap) : Prop := forall x X, h x = Some X -> sized (rr X).

Lemma a_copy_size : forall a, sized a -> mcalls_size (a_copy a) <= rr_len a - 12 + 10.
Proof.
  intros a [S4 S6]. unfold a_copy, rr_len, mcalls_size.
  assert (P1 : 0 <= match a_rdata a with Some d => zlen d | None => 0 end) by (destruct (a_rdata a); [apply zlen_nonneg|lia]).
  assert (P2 : 0 <= match a_rdname a with Some n => zlen n | None => 0 end) by (destruct (a_rdname a); [apply zlen_nonneg|lia]).
  destruct (a_type a =? QTYPE_SRV); [cbn [map fold_right mcall_size]; destruct (a_rdname a); destruct (is_zero (a_ip a)), (is_zero (a_ip6 a)), (a_type a =? QTYPE_PTR); lia|].
  destruct (a_rdname a) as [n|]; [cbn [map fold_right mcall_size]; destruct (is_zero (a_ip a)), (is_zero (a_ip6 a)), (a_type a =? QTYPE_PTR); lia|].
  destruct (a_rdata a) as [dt|]; [cbn [map fold_right mcall_size]; destruct (is_zero (a_ip a)), (is_zero (a_ip6 a)), (a_type a =? QTYPE_PTR); lia|].
  destruct (is_zero (a_ip a)); cbn [negb]; [destruct (is_zero (a_ip6 a)); cbn [negb]|]; cbn [map fold_right mcall_size]; destruct (a_type a =? QTYPE_PTR); try destruct (is_zero (a_ip6 a)); lia.
Qed.
Lemma record_size : forall sec n ty cl ttl a, sized a -> mcalls_size (MRr sec n ty cl ttl :: a_copy a) <= rr_len a + 262.
Proof. intros sec n ty cl ttl a S. change (MRr sec n ty cl ttl :: a_copy a) with ([MRr sec n ty cl ttl] ++ a_copy a). rewrite mcalls_size_app. pose proof (a_copy_size a S). unfold mcalls_size at 1. cbn [map fold_right mcall_size]. lia. Qed.

(* ------------------------------------------------------------------ *)
(* Responses *)

Definition within (frm : Z) (m : list mcall) : Prop := mlen m <= Z.max 12 (frm + 261).
Lemma within_grow : forall frm m sec n ty cl ttl a, sized a -> mlen m + rr_len a < frm -> within frm (m ++ MRr sec n ty cl ttl :: a_copy a).
Proof. intros frm m sec n ty cl ttl a S L. unfold within. pose proof (mlen_app m (MRr sec n ty cl ttl :: a_copy a)). pose proof (record_size sec n ty cl ttl a S). lia. Qed.

Definition same_rr_rel (X Y : mrec) : Prop := rr Y = rr X.
Lemma sized_evo : forall h h', hevo same_rr_rel h h' -> hsized h -> hsized h'.
Proof. intros h h' E S x Y EY. destruct (E x Y EY) as (X & EX & K). unfold same_rr_rel in K. rewrite K. eapply S. exact EX. Qed.
Lemma srr_refl : forall X, same_rr_rel X X. Proof. reflexivity. Qed.
Lemma srr_trans : forall X Y Z, same_rr_rel X Y -> same_rr_rel Y Z -> same_rr_rel X Z. Proof. unfold same_rr_rel. congruence. Qed.
Lemma srr_link : forall X p, same_rr_rel X (set_link X p). Proof. reflexivity. Qed.

Lemma r_out_within : forall fuel s t frm cls dsc q m seen ret s' m' seen' ret', hsized (hp s) -> within frm m ->
  r_out fuel s t frm cls dsc q m seen ret = Ok (s', m', seen', ret') -> hsized (hp s') /\ within frm m'.
Proof.
  induction fuel as [|fuel IH]; intros s t frm cls dsc q m seen ret s' m' seen' ret' S W E; [discriminate|]. cbn [r_out] in E. destruct (head s q) as [r|]; [|injection E as <- <- _ _; auto].
  apply bind_ok in E as (X & EX & E). apply hget_ok in EX. destruct (mlen m + rr_len (rr X) <? frm) eqn:L; [|injection E as <- <- _ _; auto]. cbv zeta in E.
  destruct (dsc && disco_skips X); [eapply IH; [| |exact E]; assumption|].
  assert (W' : within frm (m ++ answer_calls cls X)) by (apply within_grow; [eapply S; exact EX|lia]).
  assert (S' : hsized (hset (hp s) r (set_modified (set_sent X t) false))) by (eapply sized_evo; [|exact S]; eapply hevo_set; [apply srr_refl|exact EX|reflexivity]).
  destruct (a_ttl (rr X) =? 0); [|eapply IH; [| |exact E]; assumption].
  apply bind_ok in E as (s1 & E1 & E). apply bind_ok in E as (s2 & E2 & E). apply (r_remove_lists_evo same_rr_rel srr_refl srr_trans srr_link) in E1 as [E1 _]. apply (r_done_evo same_rr_rel srr_refl) in E2 as [E2 _].
  eapply IH; [| |exact E]; [|exact W']. eapply sized_evo; [exact E2|]. eapply sized_evo; [exact E1|exact S'].
Qed.
Lemma pub_loop_within : forall fuel s t frm cls cur last m seen ret s' m' seen' ret', hsized (hp s) -> within frm m ->
  pub_loop fuel s t frm cls cur last m seen ret = Ok (s', m', seen', ret') -> hsized (hp s') /\ within frm m'.
Proof.
  induction fuel as [|fuel IH]; intros s t frm cls cur last m seen ret s' m' seen' ret' S W E; [discriminate|]. cbn [pub_loop] in E. destruct cur as [c|]; [|injection E as <- <- _ _; auto].
  apply bind_ok in E as (X & EX & E). apply hget_ok in EX. destruct (mlen m + rr_len (rr X) <? frm) eqn:L; [|injection E as <- <- _ _; auto]. cbv zeta in E.
  assert (W' : within frm (m ++ answer_calls cls X)) by (apply within_grow; [eapply S; exact EX|lia]).
  set (X1 := set_sent (set_tries X (tries X + 1)) t) in *. assert (S' : hsized (hset (hp s) c X1)) by (eapply sized_evo; [|exact S]; eapply hevo_set; [apply srr_refl|exact EX|reflexivity]).
  destruct (negb (a_ttl (rr X1) =? 0) && (tries X1 <? 4)); [eapply IH; [| |exact E]; assumption|].
  apply bind_ok in E as (s1 & E1 & E). apply bind_ok in E as (s2 & E2 & E).
  eapply IH; [| |exact E]; [|exact W'].
  assert (S1 : hsized (hp s1)).
  { match type of E1 with match _ with None => Ok ?D | _ => _ end = _ => set (s0 := D) in * end.
    assert (S0 : hsized (hp s0)).
    { replace (hp s0) with (hset (hset (hp s) c X1) c (set_link X1 None)) by (unfold s0; destruct (ptr_eqb _ _); reflexivity).
      eapply sized_evo; [|exact S']. eapply hevo_set; [apply srr_refl|apply hset_same|reflexivity]. }
    destruct last as [l|]; [|injection E1 as <-; exact S0]. apply bind_ok in E1 as (Y & EY & E1). injection E1 as <-. apply hget_ok in EY.
    eapply sized_evo; [|exact S0]. eapply hevo_set; [apply srr_refl|exact EY|reflexivity]. }
  destruct (a_ttl (rr X1) =? 0); [|injection E2 as <-; exact S1]. apply (r_done_evo same_rr_rel srr_refl) in E2 as [E2 _]. eapply sized_evo; [exact E2|exact S1].
Qed.
Lemma out_publish_within : forall s t frm cls m seen ret s' m' seen' ret', hsized (hp s) -> within frm m ->
  out_publish s t frm cls m seen ret = Ok (s', m', seen', ret') -> hsized (hp s') /\ within frm m'.
Proof.
  intros s t frm cls m seen ret s' m' seen' ret' S W E. unfold out_publish in E. destruct (probing s); [injection E as <- <- _ _; auto|]. destruct (a_publish s); [|injection E as <- <- _ _; auto].
  destruct (_ <=? 0); [|injection E as <- <- _ _; auto]. apply bind_ok in E as ([[[s1 m1] seen1] r1] & E1 & E). apply pub_loop_within in E1 as [S1 W1]; [|assumption..].
  injection E as <- <- _ _. split; [|exact W1]. destruct (a_publish s1); exact S1.
Qed.

Lemma ar_within : forall s frm cls m r seen m' seen', hsized (hp s) -> within frm m -> ar s frm cls m r seen = Ok (m', seen') -> within frm m'.
Proof.
  intros s frm cls m r seen m' seen' S W E. unfold ar in E. destruct (mem r seen); [injection E as <- _; exact W|]. apply bind_ok in E as (X & EX & E). apply hget_ok in EX.
  destruct (frm <=? mlen m + rr_len (rr X)) eqn:L; [injection E as <- _; exact W|]. injection E as <- _. apply within_grow; [eapply S; exact EX|lia].
Qed.
Lemma ar_addr_loop_within : forall l s frm cls h m seen m' seen', hsized (hp s) -> within frm m -> ar_addr_loop s frm cls l h m seen = Ok (m', seen') -> within frm m'.
Proof.
  induction l as [|x l IH]; intros s frm cls h m seen m' seen' S W E; cbn [ar_addr_loop] in E; [injection E as <- _; exact W|]. apply bind_ok in E as (X & EX & E). apply bind_ok in E as ([m1 seen1] & E1 & E).
  eapply IH; [exact S| |exact E]. destruct (_ && _); [|injection E1 as <- _; exact W]. eapply ar_within; eassumption.
Qed.
Lemma ar_addr_within : forall s frm cls h m seen m' seen', hsized (hp s) -> within frm m -> ar_addr s frm cls h m seen = Ok (m', seen') -> within frm m'.
Proof. intros s frm cls [h|] m seen m' seen' S W E; cbn [ar_addr] in E; [eapply ar_addr_loop_within; eassumption|injection E as <- _; exact W]. Qed.
Lemma additional_loop_within : forall l s frm cls n m seen m' seen', hsized (hp s) -> within frm m -> additional_loop s frm cls l n m seen = Ok (m', seen') -> within frm m'.
Proof.
  induction l as [|x l IH]; intros s frm cls n m seen m' seen' S W E; cbn [additional_loop] in E; [injection E as <- _; exact W|]. apply bind_ok in E as (X & EX & E). apply bind_ok in E as ([m1 seen1] & E1 & E).
  eapply IH; [exact S| |exact E]. destruct (negb _); [injection E1 as <- _; exact W|]. destruct (_ =? _).
  - apply bind_ok in E1 as ([m2 seen2] & E2 & E1). eapply ar_addr_within; [exact S| |exact E1]. eapply ar_within; [exact S| |exact E2]. exact W.
  - destruct (_ =? _); [|injection E1 as <- _; exact W]. eapply ar_within; eassumption.
Qed.
Lemma additional_within : forall s frm cls m a seen m' seen', hsized (hp s) -> within frm m -> additional s frm cls m a seen = Ok (m', seen') -> within frm m'.
Proof.
  intros s frm cls m a seen m' seen' S W E. unfold additional in E. apply bind_ok in E as (A & EA & E). destruct (_ =? _); [eapply ar_addr_within; eassumption|].
  destruct (negb _); [injection E as <- _; exact W|]. destruct (a_rdname (rr A)); [|injection E as <- _; exact W]. destruct (bytes_eqb _ _); [injection E as <- _; exact W|]. eapply additional_loop_within; eassumption.
Qed.
Lemma additionals_within : forall l s frm cls m seen m' seen', hsized (hp s) -> within frm m -> additionals s frm cls m l seen = Ok (m', seen') -> within frm m'.
Proof.
  induction l as [|x l IH]; intros s frm cls m seen m' seen' S W E; cbn [additionals] in E; [injection E as <- _; exact W|]. apply bind_ok in E as ([m1 seen1] & E1 & E).
  eapply IH; [exact S| |exact E]. eapply additional_within; [exact S| |exact E1]. exact W.
Qed.

Lemma within_nil : forall frm, within frm [].
Proof. intros frm. unfold within. rewrite mlen_nil. lia. Qed.

Lemma response_within : forall d e d' m ret, hsized (hp (R d)) -> uans (R d) = [] -> mdnsd_out d e = Ok (d', m, ret) -> o_qr m = true -> within (frame d) (o_calls m).
Proof.
  intros d e d' m ret S U E Qr. unfold mdnsd_out in E. cbv zeta in E. change (R (with_now d (e_now e))) with (R d) in E. change (frame (with_now d (e_now e))) with (frame d) in E. rewrite U in E.
  apply bind_ok in E as ([[[s1 m1] seen1] r1] & E1 & E). apply r_out_within in E1 as [S1 W1]; [|exact S|apply within_nil].
  apply bind_ok in E as ([[[s2 m2] seen2] r2] & E2 & E). apply out_publish_within in E2 as [S2 W2]; [|assumption..].
  destruct (is_shutdown _); [injection E as _ <- _; exact W2|]. apply bind_ok in E as ([[[s3 m3] seen3] r3] & E3 & E).
  assert (S3 : hsized (hp s3) /\ within (frame d) m3).
  { destruct (a_pause s2); [|injection E3 as <- <- _ _; auto]. destruct (_ <=? 0); [|injection E3 as <- <- _ _; auto]. eapply r_out_within; [| |exact E3]; assumption. }
  destruct S3 as [S3 W3]. apply bind_ok in E as ([m4 seen4] & E4 & E). apply additionals_within in E4; [|assumption..].
  destruct (negb _); [injection E as _ <- _; exact E4|]. apply bind_ok in E as ([[s5 m5] r5] & E5 & E). destruct (negb _); [injection E as _ <- _; discriminate|].
  apply bind_ok in E as ([[q6 m6] r6] & E6 & E). destruct (_ <? _); [apply bind_ok in E as (q7 & E7 & E)|]; injection E as _ <- _; discriminate.
Qed.
