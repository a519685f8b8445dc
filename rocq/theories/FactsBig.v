(* A message that does not fit the packet buffer. *)
From Verif Require Import Base Lemmas Wire WireCallsSpec WireSize Rec Qry Out In Api RecInv RecSafe RecOps QryInv QryOps CacheOps QryReg QryLoop OutSafe OutPub OutProbe OutExtra OutAll OutSpec DaemonInv SpecDaemon FactsCalls FactsSize FactsOut.

(* What is longer than the buffer was stored past it. *)
Definition marked (m : enc) : Prop := MAX_PACKET_LEN < packet_len m -> e_ovf m = true.
Lemma put_marked : forall m l, marked (put m l).
Proof. intros m l B. rewrite packet_put in B. cbn [put e_ovf]. apply orb_true_iff. right. lia. Qed.
Lemma host_marked : forall m name, marked m -> marked (fst (host m name)).
Proof.
  intros m name M. unfold host. destruct name as [name|]; [|exact M]. destruct (mklabel name [0] 0) as [[lab last]|]; [|exact M]. cbv zeta. cbn [fst].
  match goal with |- context [put m ?w] => exact (put_marked m w) end.
Qed.
Lemma patch_marked : forall m o v, marked m -> marked (patch2 m o v).
Proof. intros m o v M B. rewrite packet_patch in B. rewrite patch_ovf. exact (M B). Qed.
Lemma do_mcall_marked : forall m c, marked m -> marked (do_mcall m c).
Proof.
  intros m c M. destruct c as [n ty cl|sec n ty cl ttl|a|a|n|p w q n|dt]; cbn [do_mcall].
  - apply put_marked.
  - destruct sec; apply put_marked.
  - apply put_marked.
  - apply put_marked.
  - unfold rdata_name. cbv zeta. pose proof (host_marked (put m [0; 0]) (Some n) (put_marked _ _)) as K. destruct (host _ _) as [m1 k]. apply patch_marked. exact K.
  - unfold rdata_srv. cbv zeta. match goal with |- context [host ?m0 n] => pose proof (host_marked m0 n (put_marked _ _)) as K; destruct (host m0 n) as [m1 k] end. apply patch_marked. exact K.
  - apply put_marked.
Qed.
Lemma encode_marked : forall l, MAX_PACKET_LEN < mlen l -> e_ovf (encode l) = true.
Proof.
  intros l. unfold mlen, encode. assert (M : marked enc_empty) by (intros B; exfalso; apply (Z.lt_irrefl 12); eapply Z.lt_trans; [|exact B]; reflexivity). revert M. generalize enc_empty.
  induction l as [|c l IH]; intros m M B; [exact (M B)|]. cbn [fold_left] in *. apply IH; [apply do_mcall_marked; exact M|exact B].
Qed.

(* A question takes four bytes and a name. *)
Lemma questions_len : forall cls l, 12 + 4 * zlen l <= mlen (map (question_of cls) l).
Proof.
  intros cls l. unfold mlen, encode. change 12 with (packet_len enc_empty). generalize enc_empty. induction l as [|x l IH]; intros m; [rewrite zlen_nil; cbn [map fold_left]; lia|].
  cbn [map fold_left]. rewrite zlen_cons. specialize (IH (do_mcall m (question_of cls x))). enough (packet_len m + 4 <= packet_len (do_mcall m (question_of cls x))) by lia. clear IH.
  unfold question_of. cbn [do_mcall]. unfold message_qd. cbv zeta. set (m0 := mkenc _ _ _ _ _ _ _). destruct (host_any m0 (Some (q_nm x))) as (H1 & H2 & _). rewrite !packet_put, !zlen_short. change (packet_len m0) with (packet_len m) in H1. lia.
Qed.

(* Different names *)
Definition name_no (i : nat) : list Z := let z := Z.of_nat i in [97 + z mod 26; 97 + z / 26 mod 26; 97 + z / 676 mod 26; 97 + z / 17576; 46].
Lemma name_no_inj : forall i j, name_no i = name_no j -> i = j.
Proof.
  intros i j E. unfold name_no in E. cbv zeta in E. pose proof (f_equal (fun l => nth 0 l 0) E) as E1. pose proof (f_equal (fun l => nth 1 l 0) E) as E2. pose proof (f_equal (fun l => nth 2 l 0) E) as E3. pose proof (f_equal (fun l => nth 3 l 0) E) as E4. cbn [nth] in E1, E2, E3, E4. clear E. set (a := Z.of_nat i) in *. set (b := Z.of_nat j) in *. enough (a = b) by (unfold a, b in *; lia).
  assert (A1 : a mod 26 = b mod 26) by lia. assert (A2 : a / 26 mod 26 = b / 26 mod 26) by lia. assert (A3 : a / 676 mod 26 = b / 676 mod 26) by lia. assert (A4 : a / 17576 = b / 17576) by lia. clear E1 E2 E3 E4. clearbody a b.
  rewrite (Z.div_mod a 26), (Z.div_mod b 26), A1 by lia. f_equal. f_equal. rewrite (Z.div_mod (a / 26) 26), (Z.div_mod (b / 26) 26), A2 by lia. f_equal. f_equal. rewrite !Z.div_div by lia. change (26 * 26) with 676.
  rewrite (Z.div_mod (a / 676) 26), (Z.div_mod (b / 676) 26), A3 by lia. f_equal. f_equal. rewrite !Z.div_div by lia. change (676 * 26) with 17576. exact A4.
Qed.

(* k queries for different names, none of them asked yet *)
Lemma many_queries : forall k, exists d, reach d /\ R d = recs_new /\ is_shutdown d = false /\ now d = (1, 0) /\ length (qlist (Q d)) = k /\ (k <> 0%nat -> checkq (Q d) = 1) /\
  (forall q x, qh (Q d) q = Some x -> q_next x = 1 /\ q_tries x = 0 /\ exists i, (i < k)%nat /\ q_nm x = name_no i) /\ Forall (fun q => qh (Q d) q <> None) (qlist (Q d)).
Proof.
  induction k as [|k (d & K & A1 & A2 & A3 & A4 & A5 & A6 & A7)].
  - exists (mdnsd_new (1, 0) 1 1400). split; [apply reach_new; cbn [fst]; lia|]. repeat (split; [reflexivity|]). split; [congruence|]. split; [discriminate|constructor].
  - destruct (reach_dinv d K) as (qs & H & C). destruct C as (C1 & _). set (e := mkenv (1, 0) 0 None (fun _ => false)).
    destruct (mdnsd_query_spec (Q d) 1 (name_no k) 1 (Some 0%nat) C1) as (s' & o & E & H' & So & Ef & _).
    assert (o = None). { destruct o as [q|]; [|reflexivity]. exfalso. destruct So as (x & Ex & Nx & _). destruct (A6 q x Ex) as (_ & _ & i & B & Ni). rewrite Nx in Ni. apply name_no_inj in Ni. lia. } subst o.
    destruct Ef as (F1 & F2 & F3 & F4).
    assert (St : step d e (OQuery (name_no k) 1 (Some 0%nat)) = Ok (with_Q d s', RUnit)) by (cbn [step]; rewrite A3; cbn [fst]; rewrite E; reflexivity).
    exists (with_Q d s'). split; [eapply reach_step; [exact K| |exact St]; split; [cbn; lia|exact Logic.I]|]. cbn [with_Q R is_shutdown now Q].
    split; [exact A1|]. split; [exact A2|]. split; [exact A3|]. split; [rewrite F3; cbn [length]; congruence|]. split; [auto|]. split.
    + intros q x Ex. destruct (Nat.eq_dec q (qfresh (Q d))) as [->|D].
      * rewrite F1 in Ex. injection Ex as <-. cbn [q_next q_tries q_nm]. split; [reflexivity|]. split; [reflexivity|]. exists k. split; [lia|reflexivity].
      * rewrite F2 in Ex by exact D. destruct (A6 q x Ex) as (B1 & B2 & i & B3 & B4). split; [exact B1|]. split; [exact B2|]. exists i. split; [lia|exact B4].
    + rewrite F3. constructor; [congruence|]. eapply Forall_impl; [|exact A7]. intros q Nq. destruct (Nat.eq_dec q (qfresh (Q d))) as [->|D]; [congruence|]. rewrite F2 by exact D. exact Nq.
Qed.

Lemma all_asked : forall s t l, (forall q x, qh s q = Some x -> q_next x = 1 /\ q_tries x = 0 ) -> 1 <= t -> Forall (fun q => qh s q <> None) l ->
  zlen (filter (QryLoop.asks t) (queries_at s l)) = zlen l.
Proof.
  intros s t l A T F. induction F as [|q l Nq F IH]; [reflexivity|]. unfold queries_at in *. cbn [flat_map]. rewrite zlen_cons, <- IH. destruct (qh s q) as [x|] eqn:E; [|congruence].
  destruct (A q x E) as [A1 A2]. cbn [app filter]. unfold QryLoop.asks at 1. rewrite A1, A2. replace (1 <=? t) with true by lia. cbn [Z.ltb andb Z.compare]. rewrite zlen_cons. reflexivity.
Qed.

Lemma overflowing : exists d e d' m n, reach d /\ legal d e OOut /\ step d e OOut = Ok (d', RMsg m n) /\ e_ovf (encode (o_calls m)) = true.
Proof.
  destruct (many_queries (Z.to_nat 16384)) as (d & K & A1 & A2 & A3 & A4 & A5 & A6 & A7). set (e := mkenv (1, 0) 0 None (fun _ => false)).
  assert (L : legal d e OOut) by (split; [cbn; lia|left; reflexivity]).
  destruct (reach_ok d e OOut K L) as (d' & x & E). assert (Q : exists m n, x = RMsg m n) by (cbn [step] in E; apply bind_ok in E as ([[d1 m] n] & _ & E); injection E as _ <-; eauto). destruct Q as (m & n & ->).
  exists d, e, d', m, n. split; [exact K|]. split; [exact L|]. split; [exact E|]. apply encode_marked.
  destruct (out_cases d e d' m n K L E) as (qs & qs' & H & C & O & H').
  assert (QE : forall k, qs k = []). { intros k. pose proof (qk_chain _ _ (ri_q _ _ H) k) as Ck. rewrite A1 in Ck. destruct (qs k) as [|y l]; [reflexivity|]. exfalso. apply chain_hd in Ck. destruct k; cbn in Ck; discriminate. }
  assert (Sn : forall N restN k, qs k = N ++ restN -> N = []) by (intros N restN k Ek; rewrite QE in Ek; symmetry in Ek; apply app_eq_nil in Ek; tauto).
  destruct O as [u us X added Eu EX G|N restN P restP s' Eu Sd E1 E2 Dp A Ua Cf Bl|N restN P restP A restA s' added all seen Eu Sd D Eall Nall Eseen Af Ua Tp Tb Cf Tq G
    |N restN A restA s' l Eu Sd D E1 E2 El La Af Ua Cf Tp Tb Tq|N restN A restA s' q1 q' l m ret T V Eu Sd D E1 E2 El La Af Ua Cf Tp Tb Tq QO Ql Sh Zq Uq CK TO G].
  - rewrite A1 in Eu. discriminate.
  - congruence.
  - exfalso. apply Nall. destruct D as [D1 D2 D3 _ _ _ _ _]. apply Sn in D1, D2, D3. subst. reflexivity.
  - exfalso. apply La. subst l. unfold asked, probe_due. rewrite QE. destruct (_ <=? _); reflexivity.
  - cbn [o_calls]. unfold queries_out in QO. rewrite A5 in QO by lia. change (fst (e_now e)) with 1 in QO. cbn [Z.eqb negb andb Z.leb Z.compare Pos.compare Pos.compare_cont Pos.eqb] in QO.
    destruct QO as (_ & (ks & -> & _) & _). eapply Z.lt_le_trans; [|apply mlen_app]. eapply Z.lt_le_trans; [|apply questions_len].
    rewrite all_asked; [|intros q x Ex; destruct (A6 q x Ex) as (B1 & B2 & _); auto|lia|exact A7]. unfold zlen. rewrite A4. rewrite Z2Nat.id by lia. reflexivity.
Qed.
