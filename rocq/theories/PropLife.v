(* Property theorems C30, C32, C33, C34 and C40: the life of a record.
   Vocabulary: SpecDaemon.v, SpecLife.v.  Model: Rec.v, Out.v, Api.v. *)
From Verif Require Import Base Hash Wire Rec Qry Out In Api SpecDaemon SpecLife Scenario FactsDrain FactsLife FactsBye.

(* ---- C30 ---- *)
(* r: the record mdnsd_unique just made.  Never more than three probes, and
   exactly three before the record is first sent in a multicast response.  So
   that messages tell which record they show, no other record may look the
   same. *)
Theorem C30_three : forall d e h ty ttl cb d1 r l d2, reach d -> legal d e (OUnique h ty ttl cb) -> step d e (OUnique h ty ttl cb) = Ok (d1, RRec r) ->
  history d1 l d2 -> (forall ev, In ev l -> singular (ev_before ev) r) ->
  (exists n, times (probes_for r) n l /\ (n <= 3)%nat) /\ forall l1 ev l2, l = l1 ++ ev :: l2 -> multicasts r ev -> times (probes_for r) 3 l1.
Proof. exact three_probes. Qed.
Print Assumptions C30_three.

(* Whatever other records there are: three probes before the record waits to be
   announced or sent as a reply. *)
Theorem C30_first : forall d e h ty ttl cb d1 r l d2 q, reach d -> legal d e (OUnique h ty ttl cb) -> step d e (OUnique h ty ttl cb) = Ok (d1, RRec r) ->
  history d1 l d2 -> q <> Probing -> waits d2 q r -> seen (probes_for r) 3 l.
Proof. exact probed_first. Qed.
Print Assumptions C30_first.

(* It is enough that no other record has the same name and type. *)
Definition singularb (d : daemon) (r : nat) : bool :=
  match hp (R d) r with
  | Some X => forallb (fun y => Nat.eqb y r || match hp (R d) y with Some Y => negb (bytes_eqb (a_name (rr Y)) (a_name (rr X)) && (a_type (rr Y) =? a_type (rr X))) | None => true end) (seq 0 (fresh (R d)))
  | None => true
  end.
Lemma singular_by : forall d r, reach d -> singularb d r = true -> singular d r.
Proof.
  intros d r K B X y Y EX EY N E. unfold singularb, record in *. rewrite EX in B. rewrite forallb_forall in B. destruct (FactsCalls.reach_dinv d K) as (qs & H & _).
  assert (I : In y (seq 0 (fresh (R d)))) by (apply in_seq; split; [apply Nat.le_0_l|]; cbn [Nat.add]; apply (RecInv.qk_fresh _ _ (RecSafe.ri_q _ _ H)); congruence).
  specialize (B y I). rewrite EY in B. destruct (Nat.eqb_spec y r) as [->|_]; [contradiction|]. cbn [orb] in B. unfold shown in E. injection E as E1 E2 E3 E4.
  rewrite E1, E2, Lemmas.bytes_eqb_refl, Z.eqb_refl in B. discriminate.
Qed.
Lemma singulars_by : forall l d r, reach d -> forallb (fun ev => singularb (ev_before ev) r) (recorded d l) = true -> forall ev, In ev (recorded d l) -> singular (ev_before ev) r.
Proof.
  intros l d r K B ev I. rewrite forallb_forall in B. apply singular_by; [|apply B; exact I]. apply in_split in I as (l1 & l2 & E). pose proof (recorded_history l d) as Hh. rewrite E in Hh.
  apply history_split in Hh as (Hh & _). exact (FactsOut.history_reach _ _ _ K Hh).
Qed.
Lemma split_at : forall (l : list event) n x, (n < length l)%nat -> l = firstn n l ++ nth n l x :: skipn (S n) l.
Proof.
  induction l as [|a l IH]; intros n x Hn; [inversion Hn|]. destruct n as [|n]; [reflexivity|]. cbn [firstn nth app]. change (skipn (S (S n)) (a :: l)) with (skipn (S n) l).
  f_equal. apply IH. apply Nat.succ_lt_mono. exact Hn.
Qed.

(* A host name beside another record; the fifth mdnsd_out is the first to send
   it. *)
Definition host_made : daemon := story 1400 [((1, 0), OShared (nm 115) QTYPE_PTR 60); ((1, 0), OSetHost 0 (nm 105)); ((1, 0), OUnique (nm 97) QTYPE_A 60 (Some 7%nat))].
Definition host_life : list (tv * op) := ((1, 0), OSetIp 1 [10; 0; 0; 1]) :: map (fun t => ((t, 0), OOut)) [1; 2; 3; 4; 5; 6; 7].
Example C30_case : legal (story 1400 [((1, 0), OShared (nm 115) QTYPE_PTR 60); ((1, 0), OSetHost 0 (nm 105))]) (at_ (1, 0)) (OUnique (nm 97) QTYPE_A 60 (Some 7%nat)) /\
  step (story 1400 [((1, 0), OShared (nm 115) QTYPE_PTR 60); ((1, 0), OSetHost 0 (nm 105))]) (at_ (1, 0)) (OUnique (nm 97) QTYPE_A 60 (Some 7%nat)) = Ok (host_made, RRec 1) /\
  (forall ev, In ev (recorded host_made host_life) -> singular (ev_before ev) 1) /\ (length (recorded host_made host_life) = 8)%nat /\
  exists l1 ev l2, recorded host_made host_life = l1 ++ ev :: l2 /\ multicasts 1 ev /\ times (probes_for 1) 3 l1.
Proof.
  assert (L : legal (story 1400 [((1, 0), OShared (nm 115) QTYPE_PTR 60); ((1, 0), OSetHost 0 (nm 105))]) (at_ (1, 0)) (OUnique (nm 97) QTYPE_A 60 (Some 7%nat))) by (apply legalb_ok; vm_compute; reflexivity).
  assert (E : step (story 1400 [((1, 0), OShared (nm 115) QTYPE_PTR 60); ((1, 0), OSetHost 0 (nm 105))]) (at_ (1, 0)) (OUnique (nm 97) QTYPE_A 60 (Some 7%nat)) = Ok (host_made, RRec 1)) by (vm_compute; reflexivity).
  assert (S : forall ev, In ev (recorded host_made host_life) -> singular (ev_before ev) 1) by (apply singulars_by; [apply story_reach|vm_compute; reflexivity]).
  assert (Z : (length (recorded host_made host_life) = 8)%nat) by (vm_compute; reflexivity).
  split; [exact L|]. split; [exact E|]. split; [exact S|]. split; [exact Z|].
  set (ev0 := mkevent host_made (at_ (1, 0)) OOut RUnit host_made).
  assert (M : exists n, (n < 8)%nat /\ multicasts 1 (nth n (recorded host_made host_life) ev0)).
  { exists 5%nat. split; [vm_compute; repeat constructor|]. eexists. eexists. eexists. split; [vm_compute; reflexivity|]. split; [vm_compute; reflexivity|]. split; [vm_compute; reflexivity|]. split; [vm_compute; reflexivity|]. split; [vm_compute; reflexivity|].
    vm_compute. left. reflexivity. }
  destruct M as (n & Hn & M). rewrite <- Z in Hn. exists (firstn n (recorded host_made host_life)), (nth n (recorded host_made host_life) ev0), (skipn (Datatypes.S n) (recorded host_made host_life)).
  split; [apply split_at; exact Hn|]. split; [exact M|]. eapply (proj2 (C30_three _ _ _ _ _ _ _ _ _ _ (story_reach _ _) L E (recorded_history host_life host_made) S)); [apply (split_at _ n ev0 Hn)|exact M].
Qed.

(* ---- C32 ---- *)
(* r: a record that is not being probed and whose data was just set.  As long
   as it is not set again there are at most four announcements, and it waits for
   another one exactly while there were fewer than four. *)
Theorem C32_four : forall d e o d1 x r X l d2, reach d -> legal d e o -> sets_raw o r -> step d e o = Ok (d1, x) -> record d r X -> ~ in_probing X ->
  history d1 l d2 -> (forall ev, In ev l -> singular (ev_before ev) r /\ ~ updates (ev_before ev) (ev_call ev) r) ->
  exists n, times (announces r) n l /\ (n <= 4)%nat /\ forall Y, record d2 r Y -> (waits d2 Publish r <-> (n < 4)%nat).
Proof. exact four_announcements. Qed.
Print Assumptions C32_four.

(* While it waits, mdnsd_out sends it when its time has come, unless the message
   is full or something is being probed. *)
Theorem C32_due : forall d e d' m n r, reach d -> legal d e OOut -> step d e OOut = Ok (d', RMsg m n) -> is_shutdown d = false -> uans (R d) = [] ->
  (forall x, ~ waits d Probing x) -> waits d Publish r -> micros (t_publish (R d)) <= micros (e_now e) ->
  announces r (mkevent d e OOut (RMsg m n) d') \/ exists y Y, waits d Publish y /\ record d y Y /\ frame d <= packet_len (encode (o_calls m)) + rr_len (rr Y).
Proof. exact announcement_sent. Qed.
Print Assumptions C32_due.

Definition text_made : daemon := story 1400 [((1, 0), OShared (nm 97) QTYPE_TXT 60)].
Definition text_set : daemon := story 1400 [((1, 0), OShared (nm 97) QTYPE_TXT 60); ((1, 0), OSetRaw 0 [1; 97])].
Definition text_life : list (tv * op) := map (fun t => ((t, 0), OOut)) [1; 3; 4; 5; 7; 9].
Example C32_case : legal text_made (at_ (1, 0)) (OSetRaw 0 [1; 97]) /\ step text_made (at_ (1, 0)) (OSetRaw 0 [1; 97]) = Ok (text_set, RUnit) /\
  (exists X, record text_made 0 X /\ ~ in_probing X) /\ (forall ev, In ev (recorded text_set text_life) -> singular (ev_before ev) 0 /\ ~ updates (ev_before ev) (ev_call ev) 0) /\
  times (announces 0) 4 (recorded text_set text_life) /\
  (forall x, ~ waits text_set Probing x) /\ waits text_set Publish 0 /\ micros (t_publish (R text_set)) <= micros (1, 0).
Proof.
  assert (L : legal text_made (at_ (1, 0)) (OSetRaw 0 [1; 97])) by (apply legalb_ok; vm_compute; reflexivity).
  assert (E : step text_made (at_ (1, 0)) (OSetRaw 0 [1; 97]) = Ok (text_set, RUnit)) by (vm_compute; reflexivity).
  assert (EX : exists X, record text_made 0 X /\ ~ in_probing X) by (eexists; split; [vm_compute; reflexivity|vm_compute; intros [K _]; apply K; reflexivity]).
  assert (O : forallb (fun ev => match ev_call ev with OOut => true | _ => false end) (recorded text_set text_life) = true) by (vm_compute; reflexivity).
  assert (S : forall ev, In ev (recorded text_set text_life) -> singular (ev_before ev) 0 /\ ~ updates (ev_before ev) (ev_call ev) 0).
  { intros ev I. split; [revert ev I; apply singulars_by; [apply story_reach|vm_compute; reflexivity]|]. rewrite forallb_forall in O. specialize (O ev I). clear - O. unfold updates, sets_raw. destruct (ev_call ev); try discriminate O; auto. }
  split; [exact L|]. split; [exact E|]. split; [exact EX|]. split; [exact S|]. split; [|split; [|split]].
  - destruct EX as (X & EX & Np). destruct (C32_four _ _ _ _ _ _ X _ _ (story_reach _ _) L eq_refl E EX Np (recorded_history text_life text_set) S) as (n & T & Hn & W).
    assert (F : exists Y, record (fst (played text_set text_life)) 0 Y) by (eexists; vm_compute; reflexivity). destruct F as (Y & EY). specialize (W Y EY).
    assert (Nw : ~ waits (fst (played text_set text_life)) Publish 0) by (apply (idle_by (fst (played text_set text_life))); vm_compute; reflexivity).
    destruct (Nat.eq_dec n 4) as [->|D]; [exact T|]. destruct Nw. apply W. apply Nat.le_neq. auto.
  - intros x (l & Q & I). unfold queue_is in Q. assert (Z : head (R text_set) Probing = None) by (vm_compute; reflexivity). rewrite Z in Q. inversion Q. subst l. destruct I.
  - apply (waits_by [0%nat]); [vm_compute; reflexivity|left; reflexivity].
  - vm_compute. discriminate.
Qed.

(* ---- C33 ---- *)
(* A record that is sent with TTL 0 is gone afterwards, any other stays. *)
Theorem C33_gone : forall d e d' m n, reach d -> legal d e OOut -> step d e OOut = Ok (d', RMsg m n) -> uans (R d) = [] -> o_qr m = true ->
  exists L, answers_of m = map (as_answer (class d)) L /\ NoDup (map fst L) /\ forall r X, In (r, X) L ->
    record d r X /\ (exists q, q <> Probing /\ waits d q r) /\ (a_ttl (rr X) = 0 -> gone d' r) /\ (a_ttl (rr X) <> 0 -> exists Y, record d' r Y /\ rr Y = rr X /\ published d' r).
Proof. exact sent_then_gone. Qed.
Print Assumptions C33_gone.

(* mdnsd_done on a record whose data was set and which is not being probed *)
Theorem C33_withdrawn : forall d0 l d r X e d' x, reach d0 -> history d0 l d -> (exists ev, In ev l /\ sets_raw (ev_call ev) r) -> record d r X -> ~ in_probing X ->
  legal d e (ODone r) -> step d e (ODone r) = Ok (d', x) -> leaving d' r.
Proof. exact withdrawn_leaves. Qed.
Print Assumptions C33_withdrawn.

(* It leaves in a multicast response and not otherwise, unless all records are
   cleared.  Missing: mdnsd_out answering a service-enumeration query. *)
Theorem C33_stays_partial : forall d0 l d r, reach d0 -> leaving d0 r -> history d0 l d ->
  (forall ev, In ev l -> ev_call ev <> OClear /\ (ev_call ev = OOut -> disco (ev_before ev) = false)) ->
  (r < fresh (R d))%nat /\ (leaving d r \/ (gone d r /\ exists l1 ev l2, l = l1 ++ ev :: l2 /\ multicasts r ev /\ leaving (ev_before ev) r /\ gone (ev_after ev) r)).
Proof. exact leaving_stays. Qed.
Print Assumptions C33_stays_partial.

(* What waits as a reply, as goodbyes of unique records do, is sent by the next
   mdnsd_out, unless the message is full. *)
Theorem C33_sent : forall d e d' m n r, reach d -> legal d e OOut -> step d e OOut = Ok (d', RMsg m n) -> uans (R d) = [] -> disco d = false -> waits d Now r ->
  multicasts r (mkevent d e OOut (RMsg m n) d') \/ exists y Y, waits d Now y /\ record d y Y /\ frame d <= packet_len (encode (o_calls m)) + rr_len (rr Y).
Proof. exact reply_sent. Qed.
Print Assumptions C33_sent.

Definition host_up : list (tv * op) :=
  [((1, 0), OUnique (nm 97) QTYPE_A 60 (Some 7%nat)); ((1, 0), OSetIp 0 [10; 0; 0; 1])] ++ map (fun t => ((t, 0), OOut)) [1; 2; 3; 4; 6; 8; 10; 12].
Definition host_leaving : daemon := story 1400 (host_up ++ [((20, 0), ODone 0)]).
Example C33_case : (exists X, record (story 1400 host_up) 0 X /\ ~ in_probing X /\ tries X = 4) /\ (exists ev, In ev (annals 1400 host_up) /\ sets_raw (ev_call ev) 0) /\
  legal (story 1400 host_up) (at_ (20, 0)) (ODone 0) /\ step (story 1400 host_up) (at_ (20, 0)) (ODone 0) = Ok (host_leaving, RUnit) /\ leaving host_leaving 0 /\ waits host_leaving Now 0 /\
  exists d' m, step host_leaving (at_ (20, 0)) OOut = Ok (d', RMsg m 1) /\ uans (R host_leaving) = [] /\ disco host_leaving = false /\ o_qr m = true /\
    items (o_calls m) = [IRecord SAn (nm 97) QTYPE_A (1 + 32768) 0 [MIp4 [10; 0; 0; 1]]] /\ gone d' 0.
Proof.
  assert (X : exists X, record (story 1400 host_up) 0 X /\ ~ in_probing X /\ tries X = 4).
  { eexists. split; [vm_compute; reflexivity|]. split; [vm_compute; intros [_ K]; discriminate|reflexivity]. }
  assert (S : exists ev, In ev (annals 1400 host_up) /\ sets_raw (ev_call ev) 0).
  { assert (B : existsb (fun ev => match ev_call ev with OSetIp 0 _ => true | _ => false end) (annals 1400 host_up) = true) by (vm_compute; reflexivity). apply existsb_exists in B as (ev & I & B). exists ev. split; [exact I|].
    clear - B. destruct (ev_call ev); try discriminate B. destruct r; [reflexivity|discriminate B]. }
  assert (L : legal (story 1400 host_up) (at_ (20, 0)) (ODone 0)) by (apply legalb_ok; vm_compute; reflexivity).
  assert (E : step (story 1400 host_up) (at_ (20, 0)) (ODone 0) = Ok (host_leaving, RUnit)) by (vm_compute; reflexivity).
  split; [exact X|]. split; [exact S|]. split; [exact L|]. split; [exact E|]. split; [destruct X as (X & EX & Np & _); exact (C33_withdrawn _ _ _ _ X _ _ _ (reach_new (1, 0) 1 1400 ltac:(discriminate)) (annals_history 1400 host_up) S EX Np L E)|].
  split; [apply (waits_by [0%nat]); [vm_compute; reflexivity|left; reflexivity]|].
  eexists. eexists. split; [vm_compute; reflexivity|]. split; [vm_compute; reflexivity|]. split; [vm_compute; reflexivity|]. split; [vm_compute; reflexivity|]. split; [vm_compute; reflexivity|].
  clear. split; [intros Y K; vm_compute in K; discriminate K|]. split; [|split].
  - intros K. vm_compute in K. exact K.
  - intros q (l & Q & I). unfold queue_is in Q. replace (head _ q) with (@None nat) in Q by (destruct q; vm_compute; reflexivity). inversion Q. subst l. destruct I.
  - intros u K. vm_compute in K. destruct K.
Qed.

Lemma idle_at : forall (ls : queue -> list nat) d r, (forall q, linkedb (next_of d) (head (R d) q) (ls q) = true) -> (forall q, existsb (Nat.eqb r) (ls q) = false) -> idle d r.
Proof.
  intros ls d r K N q (l & Q & I). rewrite (FactsCalls.linked_same _ _ _ Q _ (linkedb_ok _ _ _ (K q))) in I. assert (E : existsb (Nat.eqb r) (ls q) = true) by (apply existsb_exists; exists r; split; [exact I|apply Nat.eqb_refl]).
  rewrite N in E. discriminate.
Qed.
Lemma times_by : forall (f : event -> bool) P l n, (forall ev, f ev = true <-> P ev) -> length (filter f l) = n -> times P n l.
Proof.
  intros f P l n K <-. induction l as [|a l IH] using rev_ind; [constructor|]. rewrite filter_app, app_length. cbn [filter length]. destruct (f a) eqn:E; cbn [length].
  - rewrite Nat.add_1_r. apply times_hit; [exact IH|]. apply K. exact E.
  - rewrite Nat.add_0_r. apply times_miss; [exact IH|]. intros Pa. apply K in Pa. congruence.
Qed.

(* The goodbye waits when a service-enumeration query arrives: mdnsd_out takes
   it off its queue without sending it.  The record stays published with TTL 0
   and waits for nothing. *)
Definition enumerated : list (tv * op) := [((1, 0), OShared DISCO_NAME QTYPE_PTR 60); ((1, 0), OSetHost 0 (nm 115))] ++ map (fun t => ((t, 0), OOut)) [1; 3; 5; 7] ++
  [((10, 0), OUnique (nm 97) QTYPE_A 60 (Some 7%nat)); ((10, 0), OSetIp 1 [10; 0; 0; 1])] ++ map (fun t => ((t, 0), OOut)) [10; 11; 12; 13; 15; 17; 19; 21; 23] ++
  [((30, 0), ODone 1); ((30, 0), OIn (asking 9 [mkquestion DISCO_NAME QTYPE_PTR 1] []) peer)].
Theorem C33_refuted : exists d e d' m n r, reach d /\ leaving d r /\ legal d e OOut /\ step d e OOut = Ok (d', RMsg m n) /\ ~ multicasts r (mkevent d e OOut (RMsg m n) d') /\
  published d' r /\ idle d' r /\ exists X, record d' r X /\ a_ttl (rr X) = 0.
Proof.
  exists (story 1400 enumerated), (at_ (30, 0)). eexists. eexists. eexists. exists 1%nat. split; [apply story_reach|].
  split; [eexists; exists Now; split; [vm_compute; reflexivity|]; split; [reflexivity|]; split; [discriminate|]; apply (waits_by [1%nat]); [vm_compute; reflexivity|left; reflexivity]|].
  split; [apply legalb_ok; vm_compute; reflexivity|]. split; [vm_compute; reflexivity|]. split.
  - intros (m & n & X & _ & Em & Q & _). cbn [ev_result] in Em. injection Em as <- <-. vm_compute in Q. discriminate.
  - split; [vm_compute; auto|]. split; [|eexists; split; vm_compute; reflexivity]. apply (idle_at (fun q => match q with Pause => [0%nat] | _ => [] end)); intros q; destruct q; vm_compute; reflexivity.
Qed.
Print Assumptions C33_refuted.

(* A record whose data was never set: mdnsd_done queues nothing. *)
Theorem C33_refuted_unset : exists d e d' x r X, reach d /\ record d r X /\ ~ in_probing X /\ legal d e (ODone r) /\ step d e (ODone r) = Ok (d', x) /\ published d' r /\ idle d' r /\
  exists Y, record d' r Y /\ a_ttl (rr Y) = 0.
Proof.
  exists (story 1400 [((1, 0), OShared (nm 97) QTYPE_TXT 60)]), (at_ (2, 0)). eexists. eexists. exists 0%nat. eexists. split; [apply story_reach|]. split; [vm_compute; reflexivity|].
  split; [vm_compute; intros [K _]; apply K; reflexivity|]. split; [apply legalb_ok; vm_compute; reflexivity|]. split; [vm_compute; reflexivity|]. split; [vm_compute; auto|]. split; [apply idle_by; vm_compute; reflexivity|].
  eexists. split; vm_compute; reflexivity.
Qed.
Print Assumptions C33_refuted_unset.

(* ---- C34 ---- *)
(* L: all records.  The messages after mdnsd_shutdown say goodbye to some first
   part of them, each once; when there were enough calls, to all, and nothing is
   left to say.  Packets that arrive in between do not matter.  A record fits if
   it fits into a message of its own. *)
Theorem C34_goodbyes : forall d e d1 x l d2, reach d -> legal d e OShutdown -> disco d = false -> step d e OShutdown = Ok (d1, x) ->
  (forall r X, record d r X -> 12 + rr_len (rr X) < frame d) ->
  history d1 l d2 -> (forall ev, In ev l -> ev_call ev = OOut \/ ev_call ev = OEndStep \/ exists m from, ev_call ev = OIn m from) ->
  exists L, NoDup (map fst L) /\ (forall r X, In (r, X) L <-> record d r X) /\
    (exists k, concat (map goodbyes l) = map (farewell (class d)) (firstn k L)) /\
    forall n, times calls_out n l -> (length (uans (R d)) + length L <= n)%nat -> concat (map goodbyes l) = map (farewell (class d)) L /\ (forall r, gone d2 r) /\
      forall e' d3 m k, legal d2 e' OOut -> step d2 e' OOut = Ok (d3, RMsg m k) -> k = 0 /\ o_calls m = [].
Proof. exact shutdown_goodbyes. Qed.
Print Assumptions C34_goodbyes.

(* Three records, two messages *)
Definition lodging : list (tv * op) :=
  [((1, 0), OShared (nm 115) QTYPE_PTR 60); ((1, 0), OSetHost 0 (nm 105)); ((1, 0), OUnique (nm 105) QTYPE_SRV 60 (Some 7%nat)); ((1, 0), OSetSrv 1 0 0 80 (nm 104));
   ((1, 0), OUnique (nm 104) QTYPE_A 60 (Some 8%nat)); ((1, 0), OSetIp 2 [10; 0; 0; 1])] ++ map (fun t => ((t, 0), OOut)) [1; 2; 3; 4; 6; 8; 10; 12; 14; 16; 18; 20; 22].
Definition closed : daemon := story 60 (lodging ++ [((30, 0), OShutdown)]).
Definition farewells : list (tv * op) := [((30, 0), OOut); ((30, 0), OIn (asking 9 [mkquestion (nm 104) QTYPE_A 1] []) peer); ((30, 0), OOut); ((31, 0), OOut)].
Definition fitsb (d : daemon) : bool := forallb (fun r => match hp (R d) r with Some X => 12 + rr_len (rr X) <? frame d | None => true end) (seq 0 (fresh (R d))).
Lemma fits_by : forall d, reach d -> fitsb d = true -> forall r X, record d r X -> 12 + rr_len (rr X) < frame d.
Proof.
  intros d K B r X EX. unfold fitsb, record in *. rewrite forallb_forall in B. destruct (FactsCalls.reach_dinv d K) as (qs & H & _).
  assert (I : In r (seq 0 (fresh (R d)))) by (apply in_seq; split; [apply Nat.le_0_l|]; cbn [Nat.add]; apply (RecInv.qk_fresh _ _ (RecSafe.ri_q _ _ H)); congruence).
  specialize (B r I). rewrite EX in B. apply Z.ltb_lt. exact B.
Qed.
Example C34_case : legal (story 60 lodging) (at_ (30, 0)) OShutdown /\ disco (story 60 lodging) = false /\ step (story 60 lodging) (at_ (30, 0)) OShutdown = Ok (closed, RUnit) /\
  (forall r X, record (story 60 lodging) r X -> 12 + rr_len (rr X) < frame (story 60 lodging)) /\ length (uans (R (story 60 lodging))) = 0%nat /\
  times calls_out 3 (recorded closed farewells) /\ map (fun ev => length (goodbyes ev)) (recorded closed farewells) = [2; 0; 1; 0]%nat /\
  concat (map goodbyes (recorded closed farewells)) =
    [IRecord SAn (nm 115) QTYPE_PTR 1 0 [MName (nm 105)]; IRecord SAn (nm 104) QTYPE_A (1 + 32768) 0 [MIp4 [10; 0; 0; 1]]; IRecord SAn (nm 105) QTYPE_SRV (1 + 32768) 0 [MSrv 0 0 80 (Some (nm 104))]].
Proof.
  split; [apply legalb_ok; vm_compute; reflexivity|]. split; [vm_compute; reflexivity|]. split; [vm_compute; reflexivity|]. split; [apply fits_by; [apply story_reach|vm_compute; reflexivity]|]. split; [vm_compute; reflexivity|].
  split; [|split; vm_compute; reflexivity]. apply (times_by (fun ev => match ev_call ev with OOut => true | _ => false end)); [|vm_compute; reflexivity]. intros ev. unfold calls_out. destruct (ev_call ev); split; intros K; try discriminate; reflexivity.
Qed.

(* ---- C40 ---- *)
(* Calls of mdnsd_out at time t, all of which return non-zero: there are no more
   than the waiting replies, queued records, probes still to be made and queries
   allow. *)
Theorem C40_drains : forall t d l d' ln la lp lb, reach d -> history d l d' ->
  (forall ev, In ev l -> ev_call ev = OOut /\ e_now (ev_env ev) = t /\ exists m n, ev_result ev = RMsg m n /\ n <> 0) ->
  queue_is d Now ln -> queue_is d Pause la -> queue_is d Publish lp -> queue_is d Probing lb ->
  (length l <= length (uans (R d)) + length ln + length la + 4 * length lp + 8 * length lb + 2 * length (qlist (Q d)))%nat.
Proof. exact drains. Qed.
Print Assumptions C40_drains.

(* Two records to be probed and a query: one message for all probes, one for
   the question *)
Definition starting : list (tv * op) :=
  [((1, 0), OUnique (nm 97) QTYPE_A 60 (Some 7%nat)); ((1, 0), OSetIp 0 [10; 0; 0; 1]); ((1, 0), OUnique (nm 98) QTYPE_A 60 (Some 7%nat)); ((1, 0), OSetIp 1 [10; 0; 0; 1]); ((1, 0), OQuery (nm 99) QTYPE_A (Some 0%nat))].
Example C40_case : (forall ev, In ev (recorded (story 1400 starting) [((2, 0), OOut); ((2, 0), OOut)]) -> ev_call ev = OOut /\ e_now (ev_env ev) = (2, 0) /\ exists m n, ev_result ev = RMsg m n /\ n <> 0) /\
  length (recorded (story 1400 starting) [((2, 0), OOut); ((2, 0), OOut)]) = 2%nat /\
  queue_is (story 1400 starting) Now [] /\ queue_is (story 1400 starting) Pause [] /\ queue_is (story 1400 starting) Publish [] /\ queue_is (story 1400 starting) Probing [1; 0]%nat.
Proof.
  split.
  - assert (B : forallb (fun ev => match ev_call ev, ev_result ev with OOut, RMsg m n => negb (n =? 0) && (fst (e_now (ev_env ev)) =? 2) && (snd (e_now (ev_env ev)) =? 0) | _, _ => false end) (recorded (story 1400 starting) [((2, 0), OOut); ((2, 0), OOut)]) = true) by (vm_compute; reflexivity).
    intros ev I. rewrite forallb_forall in B. specialize (B ev I). clear - B. destruct (ev_call ev); try discriminate B. destruct (ev_result ev) as [|r|m n|n|t]; try discriminate B. apply andb_true_iff in B as [B B3]. apply andb_true_iff in B as [B1 B2].
    apply Z.eqb_eq in B2, B3. apply negb_true_iff, Z.eqb_neq in B1. split; [reflexivity|]. split; [destruct (e_now (ev_env ev)); cbn [fst snd] in *; congruence|eauto].
  - split; [vm_compute; reflexivity|]. repeat split; apply linkedb_ok; vm_compute; reflexivity.
Qed.
