(* Property theorems C122.  Vocabulary: SpecMqText.v, SpecMquery.v.  Model: MqText.v,
   Mquery.v. *)
From Coq Require Import String Ascii.
From Verif Require Import Base Lemmas Lib SpecLib Wire Rec Qry Out In Api Reent Scenario Step SpecStep Mquery SpecMquery ScenarioMq MqText SpecMqText FactsMqText.

(* mquery -s prints for each answer one line, with the type, the name, the seconds until
   it expires and what there is of the data. *)
Theorem C122_line : forall ntop s k a time, 0 <= a_type a < 65536 -> 0 <= a_port a < 65536 -> zlen (match a_rdata a with Some l => l | None => [] end) < 2 ^ 31 ->
  (a_type a = 12 \/ a_type a = 33 -> a_rdname a <> None) -> - 2 ^ 31 <= a_ttl a - time < 2 ^ 31 ->
  exists p, ans ntop true s k a = Ok (s ++ [p], [], false) /\ describes ntop a (if a_ttl a =? 0 then 0 else a_ttl a - time) (text_of p (seconds (a_ttl a) time)).
Proof. exact line_describes. Qed.
Print Assumptions C122_line.
(* No line describes two answers that differ in any of this, if names have no spaces. *)
Theorem C122_unambiguous_partial : forall ntop a b n m line, describes ntop a n line -> describes ntop b m line -> no_space (a_name a) -> no_space (a_name b) -> n = m /\ same_shown ntop a b.
Proof. exact unambiguous. Qed.
Print Assumptions C122_unambiguous_partial.

(* ---- cases ---- *)
Definition shown (type ttl : Z) (name rdname : list Z) : answer := mkanswer name type ttl (Some [1; 2; 3]) [10; 0; 0; 1] [] (Some rdname) 0 0 80.
Definition no_text (f : Z) (a : list Z) : list Z := lit "10.0.0.1".
Definition line_of (a : answer) (time : Z) : option (list Z) :=
  match ans no_text true [] 0 a with Ok ([p], [], false) => Some (text_of p (seconds (a_ttl a) time)) | _ => None end.
Definition line (s : string) : option (list Z) := Some (lit s ++ [10]).
Example C122_case : no_space (lit "a.local.") /\
  line_of (shown 1 168 (lit "a.local.") []) 100 = line "A a.local. for 68 seconds to ip 10.0.0.1" /\
  line_of (shown 12 0 (lit "a.local.") (lit "b.local.")) 100 = line "PTR a.local. for 0 seconds to b.local." /\
  line_of (shown 33 99 (lit "a.local.") (lit "b.local.")) 100 = line "SRV a.local. for -1 seconds to b.local.:80" /\
  line_of (shown 16 168 (lit "a.local.") []) 100 = line "TXT (16) a.local. for 68 seconds with 3 data" /\
  line_of (shown 65535 168 (lit "a.local.") []) 100 = line "UNKNOWN (65535) a.local. for 68 seconds with 3 data".
Proof. vm_compute. split; [intros K; repeat (destruct K as [K|K]; [discriminate K|]); destruct K|]. repeat split. Qed.

(* ---- what does not hold ---- *)
(* The seconds are not the TTL of the answer: one with a TTL of 120 seconds is shown, in
   the second in which it comes, with 68. *)
Definition watching : loop (list printed) := ran (ans no_text true) [] false 0 (1, 0) [((1, 0), []); ((2, 0), [told_by [MRr SAn DISCO_NAME QTYPE_PTR 1 120; MName (nm 98)]])].
Theorem C122_refuted_seconds : session (ans no_text true) [] false 0 1 watching /\
  exists k a p, told (Q (l_daemon watching)) = [(k, a)] /\ l_prog watching = [p] /\ now (l_daemon watching) = (2, 0) /\
    describes no_text a 68 (text_of p (seconds (a_ttl a) 2)).
Proof.
  assert (Hs : session (ans no_text true) [] false 0 1 watching) by exact (ran_session _ (ans no_text true) [] false 0 1 _ eq_refl).
  assert (E : match told (Q (l_daemon watching)), l_prog watching with
              | [(k, a)], [p] => (a_ttl a =? 70) && (a_type a =? 12) && (a_port a =? 0) && match a_rdname a with Some _ => true | None => false end && (zlen (match a_rdata a with Some l => l | None => [] end) <? 100) && (fst (now (l_daemon watching)) =? 2) && (snd (now (l_daemon watching)) =? 0) && match ans no_text true [] k a with Ok ([q], [], false) => bytes_eqb (text_of q 0) (text_of p 0) && bytes_eqb (text_of q 68) (text_of p 68) | _ => false end
              | _, _ => false
              end = true) by (vm_compute; reflexivity).
  revert E Hs. generalize watching. intros w E Hs. split; [exact Hs|]. clear Hs. destruct (told (Q (l_daemon w))) as [|[k a] [|]]; try discriminate E. destruct (l_prog w) as [|p [|]]; try discriminate E.
  repeat (apply andb_true_iff in E as [E ?]). exists k, a, p. split; [reflexivity|]. split; [reflexivity|]. split; [destruct (now (l_daemon w)) as [x y]; cbn [fst snd] in *; f_equal; lia|].
  destruct (C122_line no_text [] k a 2 ltac:(lia) ltac:(lia) ltac:(lia)) as (q & Eq & D); [intros _; destruct (a_rdname a); [discriminate|congruence]|lia|]. cbn [app] in Eq.
  match goal with H : match ans _ _ _ _ _ with _ => _ end = true |- _ => rewrite Eq in H; apply andb_true_iff in H as [_ H]; apply bytes_eqb_eq in H; rename H into Ht end.
  assert (Et : a_ttl a = 70) by lia. rewrite Et in D |- *. change (seconds 70 2) with 68 in D |- *. change (if 70 =? 0 then 0 else 70 - 2) with 68 in D. rewrite <- Ht. exact D.
Qed.
Print Assumptions C122_refuted_seconds.
(* Names with spaces: the same line for different answers *)
Theorem C122_refuted_space : exists a b l, line_of a 100 = Some l /\ line_of b 100 = Some l /\ describes no_text a 1 l /\ describes no_text b 1 l /\ a_name a <> a_name b.
Proof.
  pose (a := shown 12 101 (lit "x") (lit "y for 1 seconds to z")). pose (b := shown 12 101 (lit "x for 1 seconds to y") (lit "z")).
  destruct (C122_line no_text [] 0%nat a 100 ltac:(vm_compute; split; congruence) ltac:(vm_compute; split; congruence) ltac:(vm_compute; reflexivity) ltac:(discriminate) ltac:(vm_compute; split; congruence)) as (p & Ep & Dp).
  destruct (C122_line no_text [] 0%nat b 100 ltac:(vm_compute; split; congruence) ltac:(vm_compute; split; congruence) ltac:(vm_compute; reflexivity) ltac:(discriminate) ltac:(vm_compute; split; congruence)) as (q & Eq & Dq).
  vm_compute in Ep, Eq. injection Ep as <-. injection Eq as <-. exists a, b. eexists. split; [vm_compute; reflexivity|]. split; [vm_compute; reflexivity|].
  split; [exact Dp|]. split; [exact Dq|]. vm_compute. discriminate.
Qed.
Print Assumptions C122_refuted_space.
