(* Supporting proofs for PropMqFound.v. *)
From Coq Require Import String Ascii.
From Verif Require Import Base Lemmas Wire Rec Qry Out In Api Reent Step SpecStep Mquery SpecMquery FactsMq7 MqText SpecMqFound.

Lemma listing : forall ntop T, output (flat_map (found_by ntop) T) = concat (map found_line (finds ntop T)).
Proof.
  intros ntop T. unfold output, finds. induction T as [|c T IH]; [reflexivity|]. cbn [flat_map]. rewrite flat_map_app, map_app, concat_app, IH. f_equal. unfold found_by. change QTYPE_PTR with 12.
  destruct (a_type (snd c) =? 12); [|reflexivity]. destruct (a_rdname (snd c)) as [n|]; [|reflexivity]. cbn [flat_map map concat app]. rewrite !app_nil_r. unfold text_of, found_line. cbn [fst snd].
  change (lit "+ ") with [43; 32]. change (lit " (") with [32; 40]. change (lit ")") with [41]. rewrite <- !app_assoc. reflexivity.
Qed.
Lemma session_listing : forall ntop terminate wait start s, session (ans ntop false) [] terminate wait start s -> output (l_prog s) = concat (map found_line (finds ntop (told (Q (l_daemon s))))).
Proof. intros ntop terminate wait start s K. rewrite (session_listed ntop _ _ _ _ K). apply listing. Qed.

(* Up to the first x *)
Lemma split_first : forall (x : Z) a b u v, ~ In x a -> ~ In x b -> a ++ x :: u = b ++ x :: v -> a = b /\ u = v.
Proof.
  intros x. induction a as [|y a IH]; intros [|z b] u v Na Nb E; cbn [app] in E.
  - injection E as ->. auto.
  - injection E as -> _. exfalso. apply Nb. left. reflexivity.
  - injection E as -> _. exfalso. apply Na. left. reflexivity.
  - injection E as -> E. destruct (IH b u v) as [-> ->]; [intros K; apply Na; right; exact K|intros K; apply Nb; right; exact K|exact E|]. auto.
Qed.
Lemma split_last : forall (x : Z) a b u v, ~ In x u -> ~ In x v -> a ++ x :: u = b ++ x :: v -> a = b /\ u = v.
Proof.
  intros x a b u v Nu Nv E. apply (f_equal (@rev Z)) in E. rewrite !rev_app_distr in E. cbn [rev] in E. rewrite <- !app_assoc in E. cbn [app] in E.
  apply split_first in E as [E1 E2]; [|intros K; apply Nu; apply in_rev; exact K|intros K; apply Nv; apply in_rev; exact K].
  apply (f_equal (@rev Z)) in E1, E2. rewrite !rev_involutive in E1, E2. auto.
Qed.
Definition clear (x : list Z * list Z) : Prop := ~ In 10 (fst x) /\ ~ In 40 (snd x) /\ ~ In 10 (snd x).
Lemma lines_read : forall l1 l2, Forall clear l1 -> Forall clear l2 -> concat (map found_line l1) = concat (map found_line l2) -> l1 = l2.
Proof.
  induction l1 as [|[n i] l1 IH]; intros [|[m j] l2] F1 F2 E; cbn [map concat] in E; [reflexivity|discriminate E|discriminate E|].
  inversion F1 as [|? ? (A1 & A2 & A3) F1']; subst. inversion F2 as [|? ? (B1 & B2 & B3) F2']; subst. cbn [fst snd] in *. unfold found_line in E. cbn [fst snd] in E.
  assert (R : forall a b r, ([43; 32] ++ a ++ [32; 40] ++ b ++ [41; 10]) ++ r = (43 :: 32 :: (a ++ [32]) ++ 40 :: b ++ [41]) ++ 10 :: r).
  { intros a b r. rewrite <- !app_assoc. cbn [app]. rewrite <- !app_assoc. cbn [app]. rewrite <- !app_assoc. reflexivity. }
  assert (N : forall a b, ~ In 10 a -> ~ In 10 b -> ~ In 10 (43 :: 32 :: (a ++ [32]) ++ 40 :: b ++ [41])).
  { intros a b Na Nb [K|[K|K]]; try discriminate K. apply in_app_or in K as [K|[K|K]]; [|discriminate K|]; apply in_app_or in K as [K|[K|[]]]; try discriminate K; contradiction. }
  rewrite !R in E. apply split_first in E as [E1 E2]; [|apply N; assumption|apply N; assumption]. injection E1 as E1.
  apply split_last in E1 as [E3 E4]; [|intros K; apply in_app_or in K as [K|[K|[]]]; [contradiction|discriminate K]|intros K; apply in_app_or in K as [K|[K|[]]]; [contradiction|discriminate K]].
  apply app_inv_tail in E3. apply app_inv_tail in E4. subst. f_equal. apply IH; assumption.
Qed.
Lemma finds_clear : forall ntop T, plain_text ntop -> one_line (finds ntop T) -> Forall clear (finds ntop T).
Proof.
  intros ntop T P O. apply Forall_forall. intros x I. split; [apply O; exact I|]. unfold finds in I. apply in_flat_map in I as (c & _ & I). destruct (a_type (snd c) =? 12); [|destruct I]. destruct (a_rdname (snd c)) as [n|]; [|destruct I]. destruct I as [<-|[]].
  cbn [snd]. destruct (is_zero _); apply P.
Qed.
Lemma listing_read : forall ntop terminate wait start s terminate' wait' start' s', plain_text ntop ->
  session (ans ntop false) [] terminate wait start s -> session (ans ntop false) [] terminate' wait' start' s' ->
  one_line (finds ntop (told (Q (l_daemon s)))) -> one_line (finds ntop (told (Q (l_daemon s')))) ->
  output (l_prog s) = output (l_prog s') -> finds ntop (told (Q (l_daemon s))) = finds ntop (told (Q (l_daemon s'))).
Proof.
  intros ntop terminate wait start s terminate' wait' start' s' P K K' O O' E. rewrite (session_listing _ _ _ _ _ K), (session_listing _ _ _ _ _ K') in E. apply lines_read in E; [exact E|apply finds_clear; assumption|apply finds_clear; assumption].
Qed.
