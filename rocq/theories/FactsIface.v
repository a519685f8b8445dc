(* Proofs about the interfaces. *)
From Verif Require Import Base Lemmas Iface SpecIface.

Definition at_name (l : list iface) (n : list Z) : option iface := find (fun i => bytes_eqb (i_name i) n) l.
Definition names (l : list iface) : list (list Z) := map i_name l.

Lemma at_in : forall l n x, at_name l n = Some x -> In x l /\ i_name x = n.
Proof. intros l n x E. apply find_some in E as [I B]. apply bytes_eqb_eq in B. auto. Qed.
Lemma at_none : forall l n, at_name l n = None -> ~ In n (names l).
Proof. intros l n E I. apply in_map_iff in I as (x & Ex & I). apply (find_none _ _ E) in I. rewrite Ex, bytes_eqb_refl in I. discriminate I. Qed.
Lemma at_nth : forall l i x, NoDup (names l) -> nth_error l i = Some x -> at_name l (i_name x) = Some x.
Proof.
  induction l as [|y l IH]; intros i x ND E; [destruct i; discriminate E|]. unfold at_name. cbn [find].
  inversion ND as [|? ? NI ND']; subst. destruct i as [|i]; cbn [nth_error] in E.
  - inversion E; subst. rewrite bytes_eqb_refl. reflexivity.
  - destruct (bytes_eqb (i_name y) (i_name x)) eqn:B; [|exact (IH i x ND' E)]. exfalso. apply bytes_eqb_eq in B. apply NI. rewrite B. apply in_map. exact (nth_error_In _ _ E).
Qed.
Lemma in_at : forall l x, NoDup (names l) -> In x l -> at_name l (i_name x) = Some x.
Proof. intros l x ND I. apply In_nth_error in I as (i & E). exact (at_nth l i x ND E). Qed.

Lemma find_at : forall l n k, match iface_find l n k with
  | Some j => exists i x, j = (k + i)%nat /\ nth_error l i = Some x /\ i_name x = n
  | None => at_name l n = None
  end.
Proof.
  induction l as [|y l IH]; intros n k; cbn [iface_find]; [reflexivity|]. destruct (bytes_eqb (i_name y) n) eqn:B.
  - exists 0%nat, y. split; [lia|]. split; [reflexivity|]. apply bytes_eqb_eq. exact B.
  - specialize (IH n (S k)). destruct (iface_find l n (S k)) as [j|].
    + destruct IH as (i & x & E1 & E2 & E3). exists (S i), x. split; [lia|]. split; [exact E2|exact E3].
    + unfold at_name. cbn [find]. rewrite B. exact IH.
Qed.

Lemma names_upd : forall l i x y, nth_error l i = Some x -> i_name y = i_name x -> names (upd l i y) = names l.
Proof.
  induction l as [|z l IH]; intros i x y E N; [destruct i; discriminate E|]. destruct i as [|i]; cbn [nth_error upd] in *; unfold names; cbn [map].
  - inversion E; subst. rewrite N. reflexivity.
  - f_equal. exact (IH i x y E N).
Qed.
Lemma nth_upd : forall (l : list iface) i x y, nth_error l i = Some x -> nth_error (upd l i y) i = Some y.
Proof. induction l as [|z l IH]; intros i x y E; [destruct i; discriminate E|]. destruct i as [|i]; cbn [nth_error upd] in *; [reflexivity|exact (IH i x y E)]. Qed.
Lemma at_upd : forall l i x y n, NoDup (names l) -> nth_error l i = Some x -> i_name y = i_name x ->
  at_name (upd l i y) n = if bytes_eqb (i_name x) n then Some y else at_name l n.
Proof.
  induction l as [|z l IH]; intros i x y n ND E N; [destruct i; discriminate E|]. inversion ND as [|? ? NI ND']; subst.
  destruct i as [|i]; cbn [nth_error upd] in *; unfold at_name; cbn [find].
  - inversion E; subst. rewrite N. destruct (bytes_eqb (i_name x) n); reflexivity.
  - fold (at_name (upd l i y) n). fold (at_name l n). rewrite (IH i x y n ND' E N).
    destruct (bytes_eqb (i_name z) n) eqn:B1; [|reflexivity]. destruct (bytes_eqb (i_name x) n) eqn:B2; [|reflexivity]. exfalso. apply NI.
    apply bytes_eqb_eq in B1. apply bytes_eqb_eq in B2. rewrite B1, <- B2. apply in_map. exact (nth_error_In _ _ E).
Qed.
Lemma at_snoc : forall l x n, at_name (l ++ [x]) n = match at_name l n with Some y => Some y | None => if bytes_eqb (i_name x) n then Some x else None end.
Proof.
  induction l as [|z l IH]; intros x n; cbn [app]; unfold at_name; cbn [find]; [reflexivity|].
  destruct (bytes_eqb (i_name z) n); [reflexivity|]. exact (IH x n).
Qed.

Lemma take_name : forall i s, i_name (take i s) = i_name i.
Proof.
  intros i [| |a|a]; cbn [take]; try reflexivity.
  - destruct (negb _); [|reflexivity]. destruct (_ || _); reflexivity.
  - destruct (negb _); [|reflexivity]. destruct (_ || _); reflexivity.
Qed.

(* The addresses one interface is listed with, in order *)
Definition socks (only : option (list Z)) (es : list entry) (n : list Z) : list sock := map n_sock (filter (fun e => negb (skipped only e) && bytes_eqb (n_name e) n) es).
Definition see (n : list Z) (o : option iface) (s : sock) : option iface := Some (take (match o with Some x => in_use x | None => iface_new n end) s).

Lemma scan_at : forall only es l cur, NoDup (names l) -> short_names es ->
  (forall i, cur = Some i -> exists x, nth_error l i = Some x /\ only = Some (i_name x)) ->
  NoDup (names (iface_scan only es l cur)) /\ forall n, at_name (iface_scan only es l cur) n = fold_left (see n) (socks only es n) (at_name l n).
Proof.
  intros only es. induction es as [|e es IH]; intros l cur ND SN C; cbn [iface_scan].
  { split; [exact ND|]. intros n. reflexivity. }
  assert (SN' : short_names es) by (intros x I; apply SN; right; exact I).
  unfold socks. cbn [filter]. destruct (skipped only e) eqn:Sk; cbn [negb andb].
  { exact (IH l cur ND SN' C). }
  assert (On : only = None \/ only = Some (n_name e)).
  { unfold skipped in Sk. destruct only as [o|]; [|left; reflexivity]. right. apply orb_false_iff in Sk as [Sk _]. apply orb_false_iff in Sk as [_ Sk].
    apply negb_false_iff in Sk. apply bytes_eqb_eq in Sk. rewrite Sk. reflexivity. }
  assert (F15 : firstn 15 (n_name e) = n_name e) by (apply firstn_all2; specialize (SN e (or_introl eq_refl)); unfold zlen in SN; lia).
  set (cur' := match cur with Some i => Some i | None => iface_find l (n_name e) 0 end).
  assert (D : (cur' = None /\ at_name l (n_name e) = None) \/ exists i x, cur' = Some i /\ nth_error l i = Some x /\ i_name x = n_name e).
  { unfold cur'. destruct cur as [i|].
    - right. destruct (C i eq_refl) as (x & Ex & Ox). exists i, x. split; [reflexivity|]. split; [exact Ex|]. destruct On as [On|On]; congruence.
    - pose proof (find_at l (n_name e) 0) as F. destruct (iface_find l (n_name e) 0) as [j|]; [|left; auto].
      right. destruct F as (i & x & E1 & E2 & E3). exists i, x. split; [f_equal; lia|]. auto. }
  destruct D as [(-> & An)|(i & x & -> & Ex & Nx)].
  - rewrite nth_error_app2, Nat.sub_diag by lia. cbn [nth_error].
    set (y := take (iface_new (n_name e)) (n_sock e)).
    assert (Ey : upd (l ++ [iface_new (n_name e)]) (length l) y = l ++ [y]).
    { clear. induction l as [|z l IH]; cbn [app length upd]; [reflexivity|]. rewrite IH. reflexivity. }
    rewrite Ey. assert (Ny : i_name y = n_name e) by (unfold y; rewrite take_name; cbn [iface_new i_name]; exact F15).
    destruct (IH (l ++ [y]) (match only with Some _ => Some (length l) | None => None end)) as [ND' A].
    + unfold names. rewrite map_app. cbn [map]. rewrite Ny. 
      apply NoDup_rev in ND. rewrite <- (rev_involutive (map i_name l ++ [n_name e])). apply NoDup_rev. rewrite rev_app_distr. cbn [rev app].
      constructor; [|exact ND]. rewrite <- in_rev. exact (at_none l (n_name e) An).
    + exact SN'.
    + intros i E. destruct On as [->|On]; [discriminate E|]. rewrite On in *. inversion E; subst i. exists y. split; [rewrite nth_error_app2, Nat.sub_diag by lia; reflexivity|congruence].
    + split; [exact ND'|]. intros n. rewrite A, at_snoc, Ny. destruct (bytes_eqb (n_name e) n) eqn:B.
      * apply bytes_eqb_eq in B. subst n. rewrite An. cbn [map fold_left]. unfold see at 3. reflexivity.
      * destruct (at_name l n); reflexivity.
  - rewrite Ex. rewrite (nth_upd l i x (in_use x) Ex).
    set (y := take (in_use x) (n_sock e)).
    assert (Ni : i_name (in_use x) = i_name x) by reflexivity.
    assert (Ny : i_name y = i_name x) by (unfold y; rewrite take_name; reflexivity).
    assert (ND1 : NoDup (names (upd l i (in_use x)))) by (rewrite (names_upd l i x (in_use x) Ex Ni); exact ND).
    assert (E1 : nth_error (upd l i (in_use x)) i = Some (in_use x)) by exact (nth_upd l i x (in_use x) Ex).
    destruct (IH (upd (upd l i (in_use x)) i y) (match only with Some _ => Some i | None => None end)) as [ND' A].
    + rewrite (names_upd _ i (in_use x) y E1 Ny). exact ND1.
    + exact SN'.
    + intros j E. destruct On as [->|On]; [discriminate E|]. rewrite On in *. inversion E; subst j. exists y. split; [exact (nth_upd _ i (in_use x) y E1)|congruence].
    + split; [exact ND'|]. intros n. rewrite A. rewrite (at_upd _ i (in_use x) y n ND1 E1 Ny), (at_upd l i x (in_use x) n ND Ex Ni), Ni, Nx.
      destruct (bytes_eqb (n_name e) n) eqn:B; [|reflexivity]. apply bytes_eqb_eq in B. subst n.
      rewrite <- Nx, (at_nth l i x ND Ex). cbn [map fold_left see]. reflexivity.
Qed.

Lemma skipped_usable : forall only e, skipped only e = false <-> usable only e.
Proof.
  intros only [nm sk lo mu up nu]. unfold skipped, usable. cbn [n_name n_sock n_loopback n_multicast n_up n_numeric]. split.
  - intros H. destruct sk as [| |a|a]; cbn [orb] in H; try discriminate; try (destruct lo, mu, up; discriminate H).
    + destruct lo, mu, up, nu; try discriminate H; try (rewrite orb_true_r in H; discriminate H). split; [exists a; left; reflexivity|].
      do 4 (split; [reflexivity|]). destruct only as [o|]; [right|left; reflexivity]. destruct (bytes_eqb o nm) eqn:B; [|discriminate H]. apply bytes_eqb_eq in B. rewrite B. reflexivity.
    + destruct lo, mu, up, nu; try discriminate H; try (rewrite orb_true_r in H; discriminate H). split; [exists 0; right; exists a; reflexivity|].
      do 4 (split; [reflexivity|]). destruct only as [o|]; [right|left; reflexivity]. destruct (bytes_eqb o nm) eqn:B; [|discriminate H]. apply bytes_eqb_eq in B. rewrite B. reflexivity.
  - intros ((a & S) & -> & -> & -> & -> & O). assert (K : match only with Some name => negb (bytes_eqb name nm) | None => false end = false).
    { destruct O as [->| ->]; [reflexivity|]. rewrite bytes_eqb_refl. reflexivity. }
    rewrite K. destruct S as [->|(b & ->)]; reflexivity.
Qed.
Lemma socks_in : forall only es n s, In s (socks only es n) <-> exists e, In e es /\ usable only e /\ n_name e = n /\ n_sock e = s.
Proof.
  intros only es n s. unfold socks. rewrite in_map_iff. split.
  - intros (e & E & I). apply filter_In in I as [I B]. apply andb_true_iff in B as [B1 B2]. apply negb_true_iff in B1. apply skipped_usable in B1. apply bytes_eqb_eq in B2. exists e. auto.
  - intros (e & I & U & N & E). exists e. split; [exact E|]. apply filter_In. split; [exact I|]. apply skipped_usable in U. rewrite U. cbn [negb andb]. apply bytes_eqb_eq. exact N.
Qed.
Lemma socks_listed : forall only es n, socks only es n <> [] <-> listed only es n.
Proof.
  intros only es n. split.
  - intros NE. destruct (socks only es n) as [|s t] eqn:E; [congruence|]. destruct (proj1 (socks_in only es n s)) as (e & I & U & N & _); [rewrite E; left; reflexivity|]. exists e. auto.
  - intros (e & I & U & N) E. pose proof (proj2 (socks_in only es n (n_sock e)) (ex_intro _ e (conj I (conj U (conj N eq_refl))))) as K. rewrite E in K. exact K.
Qed.

(* What the addresses do to one interface *)
Lemma fold_see : forall n ss o, ss <> [] -> fold_left (see n) ss o = Some (fold_left (fun i s => take (in_use i) s) ss (match o with Some x => x | None => iface_new n end)).
Proof.
  intros n. assert (G : forall ss x, fold_left (see n) ss (Some x) = Some (fold_left (fun i s => take (in_use i) s) ss x)).
  { induction ss as [|s ss IH]; intros x; [reflexivity|]. cbn [fold_left]. unfold see at 2. apply IH. }
  intros [|s ss] o NE; [congruence|]. cbn [fold_left]. unfold see at 2. rewrite G. destruct o as [x|]; reflexivity.
Qed.

Definition seen (ss : list sock) (i : iface) : iface := fold_left (fun i s => take (in_use i) s) ss i.

(* what never changes *)
Lemma seen_frame : forall ss i, i_name (seen ss i) = i_name i /\ i_addr_old (seen ss i) = i_addr_old i /\ i_addr6_old (seen ss i) = i_addr6_old i /\ i_sd (seen ss i) = i_sd i /\
  i_sd6 (seen ss i) = i_sd6 i /\ i_mdns (seen ss i) = i_mdns i /\ i_mdns6 (seen ss i) = i_mdns6 i /\ i_hostid (seen ss i) = i_hostid i /\
  (ss <> [] -> i_unused (seen ss i) = false) /\ (i_changed i = true -> i_changed (seen ss i) = true).
Proof.
  induction ss as [|s ss IH]; intros i; [repeat split; auto; congruence|].
  unfold seen. cbn [fold_left]. fold (seen ss (take (in_use i) s)).
  assert (T : forall j, i_name (take j s) = i_name j /\ i_addr_old (take j s) = i_addr_old j /\ i_addr6_old (take j s) = i_addr6_old j /\ i_sd (take j s) = i_sd j /\
    i_sd6 (take j s) = i_sd6 j /\ i_mdns (take j s) = i_mdns j /\ i_mdns6 (take j s) = i_mdns6 j /\ i_hostid (take j s) = i_hostid j /\ i_unused (take j s) = i_unused j /\
    (i_changed j = true -> i_changed (take j s) = true)).
  { intros j. destruct s as [| |a|a]; cbn [take]; try (repeat split; auto; fail).
    - destruct (negb _); [destruct (_ || _)|]; repeat split; auto.
    - destruct (negb _); [destruct (_ || _)|]; repeat split; auto. }
  specialize (IH (take (in_use i) s)). destruct (T (in_use i)) as (T1 & T2 & T3 & T4 & T5 & T6 & T7 & T8 & T9 & T10).
  destruct IH as (I1 & I2 & I3 & I4 & I5 & I6 & I7 & I8 & I9 & I10).
  rewrite I1, I2, I3, I4, I5, I6, I7, I8, T1, T2, T3, T4, T5, T6, T7, T8. repeat (split; [reflexivity|]). split.
  - intros _. destruct ss as [|s' ss]; [exact T9|]. apply I9. discriminate.
  - intros Hc. apply I10, T10. exact Hc.
Qed.

(* IPv6 *)
Definition v6s (ss : list sock) : list (list Z) := flat_map (fun s => match s with Inet6 a => [a] | _ => [] end) ss.
Definition v4s (ss : list sock) : list Z := flat_map (fun s => match s with Inet a => [a] | _ => [] end) ss.
Lemma in_v6s : forall ss a, In a (v6s ss) <-> In (Inet6 a) ss.
Proof.
  intros ss a. unfold v6s. rewrite in_flat_map. split.
  - intros ([| |b|b] & I & K); try destruct K as [K|[]]; try contradiction. subst. exact I.
  - intros I. exists (Inet6 a). split; [exact I|left; reflexivity].
Qed.
Lemma in_v4s : forall ss a, In a (v4s ss) <-> In (Inet a) ss.
Proof.
  intros ss a. unfold v4s. rewrite in_flat_map. split.
  - intros ([| |b|b] & I & K); try destruct K as [K|[]]; try contradiction. subst. exact I.
  - intros I. exists (Inet a). split; [exact I|left; reflexivity].
Qed.

Definition good6 (a : list Z) : Prop := bytes a /\ zlen a = 16.
Lemma rank6_range : forall a, 0 <= rank6 a <= 4.
Proof. intros a. unfold rank6. destruct (bytes_eqb a any6); [lia|]. destruct (_ && _ && _); [lia|]. destruct (_ && _); [lia|]. destruct (_ || _); lia. Qed.
Lemma rank6_any : forall a, rank6 a = 0 <-> a = any6.
Proof.
  intros a. unfold rank6. destruct (bytes_eqb a any6) eqn:B; [apply bytes_eqb_eq in B; tauto|].
  split; [|intros ->; rewrite bytes_eqb_refl in B; discriminate B]. destruct (_ && _ && _); [lia|]. destruct (_ && _); [lia|]. destruct (_ || _); lia.
Qed.
Lemma ranks : forall a, good6 a -> IN6_UNSPECIFIED a = (rank6 a =? 0) /\ IN6_LINKLOCAL a = (rank6 a =? 1) /\ IN6_SITELOCAL a = (rank6 a =? 2) /\ IN6_UNIQUELOCAL a = (rank6 a =? 3).
Proof.
  intros a [By _]. pose proof (zget_byte a 0 By) as B0. pose proof (zget_byte a 1 By) as B1. unfold is_byte in *.
  unfold IN6_UNSPECIFIED, IN6_LINKLOCAL, IN6_SITELOCAL, IN6_UNIQUELOCAL, rank6. change IN6_ANY with any6.
  destruct (bytes_eqb a any6) eqn:E.
  { apply bytes_eqb_eq in E. subst a. repeat split; reflexivity. }
  destruct ((zget a 0 =? 254) && (128 <=? zget a 1) && (zget a 1 <? 192)) eqn:E1; [lia|].
  destruct ((zget a 0 =? 254) && (192 <=? zget a 1)) eqn:E2; [lia|].
  destruct ((zget a 0 =? 252) || (zget a 0 =? 253)) eqn:E3; lia.
Qed.

Lemma any6_good : good6 any6.
Proof. split; [repeat constructor; unfold is_byte; lia|reflexivity]. Qed.

Lemma take6 : forall i a, good6 (i_addr6 i) -> good6 a -> a <> any6 ->
  (i_addr6 (take i (Inet6 a)) = a /\ rank6 (i_addr6 i) <= rank6 a) \/ (i_addr6 (take i (Inet6 a)) = i_addr6 i /\ rank6 a <= rank6 (i_addr6 i)).
Proof.
  intros i a G Ga NA. cbn [take]. destruct (bytes_eqb (i_addr6 i) a) eqn:E; cbn [negb].
  { right. apply bytes_eqb_eq in E. rewrite E. split; [reflexivity|lia]. }
  destruct (ranks _ G) as (-> & -> & -> & ->). destruct (ranks _ Ga) as (_ & -> & -> & _).
  assert (R0 : rank6 a <> 0) by (intros K; apply NA; apply rank6_any; exact K).
  pose proof (rank6_range a). pose proof (rank6_range (i_addr6 i)).
  destruct ((rank6 (i_addr6 i) =? 0) || (rank6 (i_addr6 i) =? 1) || (rank6 (i_addr6 i) =? 2) && negb (rank6 a =? 1) || (rank6 (i_addr6 i) =? 3) && negb (rank6 a =? 2) && negb (rank6 a =? 1)) eqn:E1.
  - left. split; [reflexivity|]. lia.
  - right. split; [reflexivity|]. lia.
Qed.

Lemma seen6 : forall ss i, good6 (i_addr6 i) -> (forall a, In a (v6s ss) -> good6 a /\ a <> any6) ->
  let r := i_addr6 (seen ss i) in (r = i_addr6 i \/ In r (v6s ss)) /\ rank6 (i_addr6 i) <= rank6 r /\ (forall a, In a (v6s ss) -> rank6 a <= rank6 r).
Proof.
  induction ss as [|s ss IH]; intros i G H.
  { cbn. split; [left; reflexivity|]. split; [lia|intros a []]. }
  cbn zeta. unfold seen. cbn [fold_left]. fold (seen ss (take (in_use i) s)).
  assert (H' : forall a, In a (v6s ss) -> good6 a /\ a <> any6).
  { intros a I. apply H. unfold v6s. cbn [flat_map]. apply in_or_app. right. exact I. }
  destruct s as [| |b|b].
  - exact (IH (take (in_use i) NoAddress) G H').
  - exact (IH (take (in_use i) OtherFamily) G H').
  - assert (E : i_addr6 (take (in_use i) (Inet b)) = i_addr6 i) by (cbn [take]; destruct (negb _); [destruct (_ || _)|]; reflexivity).
    specialize (IH (take (in_use i) (Inet b))). rewrite E in IH. exact (IH G H').
  - destruct (H b) as [Gb Nb]; [left; reflexivity|].
    destruct (take6 (in_use i) b G Gb Nb) as [[E R]|[E R]]; change (i_addr6 (in_use i)) with (i_addr6 i) in *.
    + specialize (IH (take (in_use i) (Inet6 b))). rewrite E in IH. destruct (IH Gb H') as (I1 & I2 & I3).
      split; [right; destruct I1 as [->|I1]; [left; reflexivity|right; exact I1]|]. split; [lia|]. intros a [->|I]; [exact I2|exact (I3 a I)].
    + specialize (IH (take (in_use i) (Inet6 b))). rewrite E in IH. destruct (IH G H') as (I1 & I2 & I3).
      split; [destruct I1 as [I1|I1]; [left; exact I1|right; right; exact I1]|]. split; [exact I2|]. intros a [->|I]; [lia|exact (I3 a I)].
Qed.

(* IPv4 *)
Definition weak4 (a : Z) : bool := IN_ZERONET a || IN_LINKLOCAL a.
Lemma weak4_iff : forall a, 0 <= a < 2 ^ 32 -> weak4 a = false <-> routable a.
Proof. intros a H. unfold weak4, IN_ZERONET, IN_LINKLOCAL, routable. lia. Qed.
Lemma seen4 : forall ss i, let r := i_addr (seen ss i) in
  (r = i_addr i \/ In r (v4s ss)) /\ (weak4 (i_addr i) = false -> r = i_addr i) /\ ((exists a, In a (v4s ss) /\ weak4 a = false) -> weak4 r = false).
Proof.
  induction ss as [|s ss IH]; intros i.
  { cbn. split; [left; reflexivity|]. split; [reflexivity|intros (a & [] & _)]. }
  cbn zeta. unfold seen. cbn [fold_left]. fold (seen ss (take (in_use i) s)). specialize (IH (take (in_use i) s)). cbn zeta in IH.
  destruct s as [| |b|b].
  - exact IH.
  - exact IH.
  - cbn [take] in *. change (i_addr (in_use i)) with (i_addr i) in *. fold (weak4 (i_addr i)) in *.
    destruct (Z.eqb_spec (i_addr i) b) as [Eb|Nb]; cbn [negb] in *.
    + change (i_addr (in_use i)) with (i_addr i) in IH. destruct IH as (I1 & I2 & I3).
      split; [destruct I1 as [I1|I1]; [left; exact I1|right; right; exact I1]|]. split; [exact I2|].
      intros (a & [->|I] & W); [rewrite I2; congruence|]. apply I3. eauto.
    + destruct (weak4 (i_addr i)) eqn:W0.
      * change (i_addr (with_addr (in_use i) b)) with b in IH. destruct IH as (I1 & I2 & I3).
        split; [right; destruct I1 as [I1|I1]; [left; symmetry; exact I1|right; exact I1]|]. split; [discriminate|].
        intros (a & [->|I] & W); [rewrite I2; assumption|]. apply I3. eauto.
      * change (i_addr (in_use i)) with (i_addr i) in IH. destruct IH as (I1 & I2 & I3).
        split; [destruct I1 as [I1|I1]; [left; exact I1|right; right; exact I1]|]. split; [intros _; apply I2; exact W0|].
        intros _. rewrite I2; assumption.
  - assert (E : i_addr (take (in_use i) (Inet6 b)) = i_addr i) by (cbn [take]; destruct (negb _); [destruct (_ || _)|]; reflexivity).
    rewrite E in IH. exact IH.
Qed.

(* the flag *)
Lemma seen_changed : forall ss i, i_addr i = 0 -> i_addr6 i = any6 ->
  (exists s, In s ss /\ ((exists a, s = Inet a /\ a <> 0) \/ exists a, s = Inet6 a /\ a <> any6)) -> i_changed (seen ss i) = true.
Proof.
  induction ss as [|s ss IH]; intros i Z4 Z6 (x & I & D); [contradiction|].
  unfold seen. cbn [fold_left]. fold (seen ss (take (in_use i) s)).
  assert (K : i_changed (take (in_use i) s) = true \/ (i_addr (take (in_use i) s) = 0 /\ i_addr6 (take (in_use i) s) = any6 /\ s <> x)).
  { destruct s as [| |b|b].
    - right. split; [exact Z4|]. split; [exact Z6|]. intros <-. destruct D as [(a & K & _)|(a & K & _)]; discriminate K.
    - right. split; [exact Z4|]. split; [exact Z6|]. intros <-. destruct D as [(a & K & _)|(a & K & _)]; discriminate K.
    - cbn [take]. change (i_addr (in_use i)) with (i_addr i). rewrite Z4. destruct (Z.eqb_spec 0 b) as [Eb|Nb]; cbn [negb].
      + right. split; [exact Z4|]. split; [exact Z6|]. intros <-. destruct D as [(a & K & N)|(a & K & _)]; [|discriminate K]. inversion K; subst. congruence.
      + left. reflexivity.
    - cbn [take]. change (i_addr6 (in_use i)) with (i_addr6 i). rewrite Z6. destruct (bytes_eqb any6 b) eqn:Eb; cbn [negb].
      + apply bytes_eqb_eq in Eb. right. split; [exact Z4|]. split; [exact Z6|]. intros <-. destruct D as [(a & K & _)|(a & K & N)]; [discriminate K|]. inversion K; subst. congruence.
      + left. reflexivity. }
  destruct K as [K|(K1 & K2 & K3)].
  - apply (seen_frame ss (take (in_use i) s)). exact K.
  - apply IH; [exact K1|exact K2|]. exists x. split; [destruct I as [I|I]; [congruence|exact I]|exact D].
Qed.
Lemma seen_unchanged : forall ss i, i_changed i = false -> i_changed (seen ss i) = false -> i_addr (seen ss i) = i_addr i /\ i_addr6 (seen ss i) = i_addr6 i.
Proof.
  induction ss as [|s ss IH]; intros i C; [auto|]. unfold seen. cbn [fold_left]. fold (seen ss (take (in_use i) s)). intros H.
  assert (K : i_changed (take (in_use i) s) = true \/ (i_changed (take (in_use i) s) = false /\ i_addr (take (in_use i) s) = i_addr i /\ i_addr6 (take (in_use i) s) = i_addr6 i)).
  { destruct s as [| |b|b]; cbn [take]; try (right; auto; fail).
    - destruct (negb _); [destruct (_ || _); [left; reflexivity|]|]; right; auto.
    - destruct (negb _); [destruct (_ || _); [left; reflexivity|]|]; right; auto. }
  destruct K as [K|(K1 & K2 & K3)].
  - apply (seen_frame ss (take (in_use i) s)) in K. congruence.
  - destruct (IH _ K1 H) as [A B]. rewrite A, B. auto.
Qed.

(* ------------------------------------------------------------------ *)
(* iface_init as a whole *)
Lemma names_mark : forall l, names (mark l) = names l.
Proof. intros l. unfold names, mark. rewrite map_map. apply map_ext. reflexivity. Qed.
Lemma sweep1_name : forall i, i_name (sweep1 i) = i_name i.
Proof. intros i. unfold sweep1. destruct (i_unused i); [reflexivity|]. destruct (negb _); [reflexivity|]. destruct (_ && _); reflexivity. Qed.
Lemma names_sweep : forall l, names (sweep l) = names l.
Proof. intros l. unfold names, sweep. rewrite map_map. apply map_ext. exact sweep1_name. Qed.
Lemma at_map : forall f l n, (forall i, i_name (f i) = i_name i) -> at_name (map f l) n = option_map f (at_name l n).
Proof.
  intros f l n H. induction l as [|x l IH]; [reflexivity|]. cbn [map]. unfold at_name. cbn [find]. rewrite H. destruct (bytes_eqb (i_name x) n); [reflexivity|exact IH].
Qed.

Lemma init_at : forall only es l, NoDup (names l) -> short_names es ->
  NoDup (names (iface_init only es l)) /\
  forall n, at_name (iface_init only es l) n =
    match socks only es n with
    | [] => option_map mark1 (at_name l n)
    | ss => Some (sweep1 (seen ss (match at_name l n with Some i => mark1 i | None => iface_new n end)))
    end.
Proof.
  intros only es l ND SN. unfold iface_init. destruct (scan_at only es (mark l) None) as [ND' A].
  - rewrite names_mark. exact ND.
  - exact SN.
  - intros i E. discriminate E.
  - split; [rewrite names_sweep; exact ND'|]. intros n. unfold sweep. rewrite at_map by exact sweep1_name. rewrite A. unfold mark. rewrite at_map by reflexivity.
    destruct (socks only es n) as [|s ss] eqn:E.
    + cbn [fold_left]. destruct (at_name l n) as [i|]; [|reflexivity]. cbn [option_map]. f_equal.
    + rewrite fold_see by discriminate. cbn [option_map]. unfold seen. destruct (at_name l n) as [i|]; reflexivity.
Qed.

Lemma sweep1_addrs : forall i, i_addr (sweep1 i) = i_addr i /\ i_addr6 (sweep1 i) = i_addr6 i /\ i_unused (sweep1 i) = i_unused i /\ i_sd (sweep1 i) = i_sd i /\ i_sd6 (sweep1 i) = i_sd6 i /\
  i_mdns (sweep1 i) = i_mdns i /\ i_mdns6 (sweep1 i) = i_mdns6 i /\ i_hostid (sweep1 i) = i_hostid i.
Proof. intros i. unfold sweep1. destruct (i_unused i) eqn:E; [auto 10|]. destruct (negb _); [auto 10|]. destruct (_ && _); cbn; auto 10. Qed.

(* C60 *)
Lemma best6 : forall only es l, NoDup (map i_name l) -> short_names es -> proper es -> no_any6 es ->
  forall i, In i (iface_init only es l) -> listed only es (i_name i) ->
  (forall a, has_inet6 only es (i_name i) a -> rank6 a <= rank6 (i_addr6 i)) /\
  ((exists a, has_inet6 only es (i_name i) a) -> has_inet6 only es (i_name i) (i_addr6 i)) /\
  ((forall a, ~ has_inet6 only es (i_name i) a) -> i_addr6 i = any6).
Proof.
  intros only es l ND SN P NA i I Li. destruct (init_at only es l ND SN) as [ND' A]. pose proof (in_at _ i ND' I) as E. rewrite A in E.
  apply socks_listed in Li. destruct (socks only es (i_name i)) as [|s ss] eqn:Es; [congruence|]. clear Li. rewrite <- Es in *.
  set (j := match at_name l (i_name i) with Some i => mark1 i | None => iface_new (i_name i) end) in *.
  assert (Ej : i_addr6 j = any6) by (unfold j; destruct (at_name l (i_name i)); reflexivity).
  assert (Ei : i_addr6 i = i_addr6 (seen (socks only es (i_name i)) j)).
  { assert (Q : i = sweep1 (seen (socks only es (i_name i)) j)) by congruence. rewrite Q at 1. apply sweep1_addrs. }
  assert (Hin : forall a, In a (v6s (socks only es (i_name i))) <-> has_inet6 only es (i_name i) a).
  { intros a. rewrite in_v6s, socks_in. reflexivity. }
  destruct (seen6 (socks only es (i_name i)) j) as (S1 & S2 & S3).
  - rewrite Ej. exact any6_good.
  - intros a Ia. apply Hin in Ia as (e & Ie & _ & _ & Se). split; [specialize (P e Ie); rewrite Se in P; exact P|]. intros ->. exact (NA e Ie Se).
  - rewrite <- Ei, Ej in *. split; [intros a Ha; apply S3, Hin; exact Ha|]. split.
    + intros (a & Ha). destruct S1 as [S1|S1]; [|apply Hin; exact S1]. exfalso.
      assert (R : rank6 a <= rank6 (i_addr6 i)) by (apply S3, Hin; exact Ha). rewrite S1 in R. pose proof (rank6_range a).
      destruct Ha as (e & Ie & _ & _ & Se). apply (NA e Ie). rewrite Se. f_equal. apply rank6_any. change (rank6 any6) with 0 in R. lia.
    + intros N. destruct S1 as [S1|S1]; [exact S1|]. exfalso. apply (N (i_addr6 i)). apply Hin. exact S1.
Qed.
Lemma best4 : forall only es l, NoDup (map i_name l) -> short_names es -> proper es ->
  forall i, In i (iface_init only es l) -> listed only es (i_name i) ->
  (i_addr i = 0 \/ has_inet only es (i_name i) (i_addr i)) /\
  ((exists a, has_inet only es (i_name i) a /\ routable a) -> routable (i_addr i)).
Proof.
  intros only es l ND SN P i I Li. destruct (init_at only es l ND SN) as [ND' A]. pose proof (in_at _ i ND' I) as E. rewrite A in E.
  apply socks_listed in Li. destruct (socks only es (i_name i)) as [|s ss] eqn:Es; [congruence|]. clear Li. rewrite <- Es in *.
  set (j := match at_name l (i_name i) with Some i => mark1 i | None => iface_new (i_name i) end) in *.
  assert (Ej : i_addr j = 0) by (unfold j; destruct (at_name l (i_name i)); reflexivity).
  assert (Ei : i_addr i = i_addr (seen (socks only es (i_name i)) j)).
  { assert (Q : i = sweep1 (seen (socks only es (i_name i)) j)) by congruence. rewrite Q at 1. apply sweep1_addrs. }
  assert (Hin : forall a, In a (v4s (socks only es (i_name i))) <-> has_inet only es (i_name i) a).
  { intros a. rewrite in_v4s, socks_in. reflexivity. }
  destruct (seen4 (socks only es (i_name i)) j) as (S1 & S2 & S3). rewrite <- Ei, Ej in *.
  assert (B : forall a, has_inet only es (i_name i) a -> 0 <= a < 2 ^ 32).
  { intros a (e & Ie & _ & _ & Se). specialize (P e Ie). rewrite Se in P. exact P. }
  split.
  - destruct S1 as [S1|S1]; [left; exact S1|right; apply Hin; exact S1].
  - intros (a & Ha & Ra). assert (W : weak4 (i_addr i) = false).
    { apply S3. exists a. split; [apply Hin; exact Ha|]. apply weak4_iff; [exact (B a Ha)|exact Ra]. }
    apply weak4_iff; [|exact W]. destruct S1 as [S1|S1]; [rewrite S1; lia|]. apply B, Hin. exact S1.
Qed.

(* C61 *)
Lemma real_socks : forall only es n, real_addr only es n -> exists s, In s (socks only es n) /\ ((exists a, s = Inet a /\ a <> 0) \/ exists a, s = Inet6 a /\ a <> any6).
Proof.
  intros only es n [(a & H & N)|(a & H & N)].
  - exists (Inet a). split; [apply socks_in; exact H|left; eauto].
  - exists (Inet6 a). split; [apply socks_in; exact H|right; eauto].
Qed.

Lemma flag_iff : forall i, i_unused i = false -> i_changed i = true -> i_changed (sweep1 i) = true <-> i_addr i <> i_addr_old i \/ i_addr6 i <> i_addr6_old i.
Proof.
  intros i U C. unfold sweep1. rewrite U, C. cbn [negb]. destruct (Z.eqb_spec (i_addr i) (i_addr_old i)) as [E1|E1]; cbn [andb].
  - destruct (bytes_eqb (i_addr6 i) (i_addr6_old i)) eqn:E2.
    + apply bytes_eqb_eq in E2. cbn [i_changed]. split; [discriminate|intros [K|K]; congruence].
    + split; [|intros _; exact C]. intros _. right. intros K. rewrite K, bytes_eqb_refl in E2. discriminate E2.
  - split; [auto|intros _; exact C].
Qed.

Lemma changed_iff : forall only es l, NoDup (map i_name l) -> short_names es ->
  forall i i', In i l -> In i' (iface_init only es l) -> i_name i' = i_name i -> real_addr only es (i_name i) ->
  i_unused i' = false /\ (i_changed i' = true <-> i_addr i' <> i_addr i \/ i_addr6 i' <> i_addr6 i).
Proof.
  intros only es l ND SN i i' I I' N Rl. destruct (init_at only es l ND SN) as [ND' A]. pose proof (in_at _ i' ND' I') as E. rewrite A, N, (in_at l i ND I) in E.
  destruct (real_socks only es (i_name i) Rl) as (s & Is & Ds).
  destruct (socks only es (i_name i)) as [|s' ss] eqn:Es; [contradiction|]. rewrite <- Es in *.
  set (r := seen (socks only es (i_name i)) (mark1 i)) in *. inversion E as [E']. clear E.
  destruct (seen_frame (socks only es (i_name i)) (mark1 i)) as (_ & F1 & F2 & _ & _ & _ & _ & _ & F3 & _). fold r in F1, F2, F3.
  assert (U : i_unused r = false) by (apply F3; rewrite Es; discriminate).
  assert (C : i_changed r = true) by (apply seen_changed; [reflexivity|reflexivity|eauto]).
  destruct (sweep1_addrs r) as (S1 & S2 & S3 & _). rewrite S1, S2, S3. split; [exact U|]. rewrite (flag_iff r U C), F1, F2. reflexivity.
Qed.
Lemma new_changed : forall only es l, NoDup (map i_name l) -> short_names es -> proper es -> no_any es ->
  forall i', In i' (iface_init only es l) -> ~ In (i_name i') (map i_name l) -> i_unused i' = false /\ i_changed i' = true /\ i_sd i' = -1 /\ i_mdns i' = false.
Proof.
  intros only es l ND SN P NA i' I' N. destruct (init_at only es l ND SN) as [ND' A]. pose proof (in_at _ i' ND' I') as E. rewrite A in E.
  assert (An : at_name l (i_name i') = None).
  { destruct (at_name l (i_name i')) as [x|] eqn:Ex; [|reflexivity]. exfalso. apply at_in in Ex as [Ix Nx]. apply N. rewrite <- Nx. apply in_map. exact Ix. }
  rewrite An in E. destruct (socks only es (i_name i')) as [|s' ss] eqn:Es; [discriminate E|]. rewrite <- Es in *.
  set (r := seen (socks only es (i_name i')) (iface_new (i_name i'))) in *. inversion E as [E']. clear E.
  destruct (seen_frame (socks only es (i_name i')) (iface_new (i_name i'))) as (_ & F1 & F2 & F4 & _ & F5 & _ & _ & F3 & _). fold r in F1, F2, F3, F4, F5.
  assert (U : i_unused r = false) by (apply F3; rewrite Es; discriminate).
  assert (Hs : exists e, In e es /\ usable only e /\ n_name e = i_name i' /\ n_sock e = s') by (apply socks_in; rewrite Es; left; reflexivity).
  assert (D : (exists a, s' = Inet a /\ a <> 0) \/ exists a, s' = Inet6 a /\ a <> any6).
  { destruct Hs as (e & Ie & ((a & [Se|(b & Se)]) & _) & _ & E2); rewrite E2 in Se; destruct (NA e Ie) as [N1 N2]; rewrite E2, Se in *.
    - left. exists a. split; [reflexivity|congruence].
    - right. exists b. split; [reflexivity|congruence]. }
  assert (C : i_changed r = true) by (apply seen_changed; [reflexivity|reflexivity|exists s'; split; [rewrite Es; left; reflexivity|exact D]]).
  destruct (sweep1_addrs r) as (S1 & S2 & S3 & S4 & _ & S5 & _). rewrite S3, S4, S5, F4, F5. cbn [iface_new i_sd i_mdns].
  split; [exact U|]. split; [|split; reflexivity]. apply (flag_iff r U C). rewrite F1, F2. cbn [iface_new i_addr_old i_addr6_old].
  assert (Hr : (i_addr i' = 0 /\ i_addr6 i' = any6) \/ ~ (i_addr i' = 0 /\ i_addr6 i' = any6)).
  { destruct (Z.eq_dec (i_addr i') 0) as [Z4|Z4]; [|right; tauto]. destruct (list_eq_dec Z.eq_dec (i_addr6 i') any6) as [Z6|Z6]; [left; auto|right; tauto]. }
  rewrite <- E', S1, S2 in Hr. change IN6_ANY with any6. destruct Hr as [[Z4 Z6]|Hr].
  2:{ destruct (Z.eq_dec (i_addr r) 0) as [Z4|Z4]; [right; intros K; apply Hr; auto|left; exact Z4]. }
  exfalso. assert (NZ : no_any6 es) by (intros e Ie; apply NA; exact Ie).
  assert (Li : listed only es (i_name i')) by (apply socks_listed; rewrite Es; discriminate).
  destruct (best6 only es l ND SN P NZ i' I' Li) as (_ & B2 & _).
  destruct D as [(a & -> & Na)|(a & -> & Na)].
  - destruct (seen4 (socks only es (i_name i')) (iface_new (i_name i'))) as (S41 & _ & _).
    (* the address became 0 only if 0 was listed *)
    assert (K : forall ss0 i0, (forall b, In (Inet b) ss0 -> b <> 0) -> (exists b, In (Inet b) ss0) \/ i_addr i0 <> 0 -> i_addr (seen ss0 i0) <> 0).
    { clear. induction ss0 as [|s0 ss0 IH]; intros i0 H0 X; [destruct X as [(b & [])|X]; exact X|]. unfold seen. cbn [fold_left]. fold (seen ss0 (take (in_use i0) s0)).
      apply IH; [intros b Ib; apply H0; right; exact Ib|]. destruct s0 as [| |b|b].
      - destruct X as [(b & [K|K])|X]; [discriminate K|left; eauto|right; exact X].
      - destruct X as [(b & [K|K])|X]; [discriminate K|left; eauto|right; exact X].
      - right. cbn [take]. change (i_addr (in_use i0)) with (i_addr i0). assert (Nb : b <> 0) by (apply H0; left; reflexivity).
        destruct (Z.eqb_spec (i_addr i0) b) as [Eb|Nb']; cbn [negb]; [cbn [in_use i_addr]; congruence|]. destruct (IN_ZERONET (i_addr i0) || IN_LINKLOCAL (i_addr i0)) eqn:W; cbn [with_addr i_addr in_use]; [exact Nb|].
        intros Z0. rewrite Z0 in W. discriminate W.
      - assert (E : i_addr (take (in_use i0) (Inet6 b)) = i_addr i0) by (cbn [take]; destruct (negb _); [destruct (_ || _)|]; reflexivity). rewrite E.
        destruct X as [(c & [K|K])|X]; [discriminate K|left; eauto|right; exact X]. }
    apply (K (socks only es (i_name i')) (iface_new (i_name i'))); [|left; exists a; rewrite Es; left; reflexivity|exact Z4].
    intros b Ib. apply socks_in in Ib as (e & Ie & _ & _ & Se). intros ->. exact (proj1 (NA e Ie) Se).
  - destruct B2 as (e & Ie & _ & _ & Se).
    + destruct Hs as (e & Ie & Ue & Ne & Se). exists a, e. auto.
    + apply (NZ e Ie). rewrite Se, <- E', S2, Z6. reflexivity.
Qed.
Lemma vanished : forall only es l, NoDup (map i_name l) -> short_names es ->
  forall i i', In i l -> In i' (iface_init only es l) -> i_name i' = i_name i -> ~ listed only es (i_name i) -> i_changed i = false ->
  i_unused i' = true /\ i_changed i' = false /\ i_mdns i' = i_mdns i /\ i_sd i' = i_sd i /\ forall fd fd6, setup_iface fd fd6 i' = Ok (Some i').
Proof.
  intros only es l ND SN i i' I I' N NL C. destruct (init_at only es l ND SN) as [ND' A]. pose proof (in_at _ i' ND' I') as E. rewrite A, N, (in_at l i ND I) in E.
  destruct (socks only es (i_name i)) as [|s ss] eqn:Es.
  2:{ exfalso. apply NL. apply socks_listed. rewrite Es. discriminate. }
  cbn [option_map] in E. inversion E as [E']. cbn [mark1 i_unused i_changed i_mdns i_sd]. rewrite C. repeat (split; [reflexivity|]).
  intros fd fd6. unfold setup_iface. cbn [mark1 i_changed]. rewrite C. reflexivity.
Qed.
Lemma kept : forall only es l, NoDup (map i_name l) -> short_names es -> forall i, In i l -> exists i', In i' (iface_init only es l) /\ i_name i' = i_name i.
Proof.
  intros only es l ND SN i I. destruct (init_at only es l ND SN) as [ND' A]. specialize (A (i_name i)). rewrite (in_at l i ND I) in A.
  destruct (socks only es (i_name i)); cbn [option_map] in A; apply at_in in A as [A1 A2]; eauto.
Qed.

(* ------------------------------------------------------------------ *)
(* The running program *)
Definition settled (l : list iface) : Prop := NoDup (map i_name l) /\ Forall (fun i => i_changed i = false) l.

Lemma setup_all_ok : forall fds l l', setup_all fds l = Ok l' -> (forall i, In i l -> i_unused i = true -> i_changed i = false) ->
  Forall2 (fun i i' => exists fd fd6, setup_iface fd fd6 i = Ok (Some i')) l l'.
Proof.
  induction l as [|i l IH]; intros l' E H; cbn [setup_all] in E.
  - inversion E. constructor.
  - destruct (fds (i_name i)) as [fd fd6]. apply bind_ok in E as (o & Eo & E). apply bind_ok in E as (m & Em & E).
    assert (K : exists i', o = Some i').
    { unfold setup_iface in Eo. destruct (i_changed i) eqn:C; cbn [negb] in Eo; [|inversion Eo; eauto].
      destruct (i_unused i) eqn:U; [rewrite (H i (or_introl eq_refl) U) in C; discriminate C|]. cbn zeta in Eo. destruct (_ <? 0) in Eo; [discriminate Eo|]. inversion Eo. eauto. }
    destruct K as (i' & ->). inversion E; subst l'. constructor; [eauto|]. apply IH; [exact Em|]. intros j Ij. apply H. right. exact Ij.
Qed.
Lemma setup_iface_ok : forall fd fd6 i i', setup_iface fd fd6 i = Ok (Some i') ->
  i_name i' = i_name i /\ i_changed i' = false /\ i_unused i' = i_unused i /\ i_addr i' = i_addr i /\ i_addr6 i' = i_addr6 i /\ (i_mdns i = true -> i_mdns i' = true) /\ (i_changed i = true -> i_mdns i' = true /\ 0 <= i_sd i') /\
  (i_changed i = false -> i' = i).
Proof.
  intros fd fd6 i i' E. unfold setup_iface in E. destruct (i_changed i) eqn:C; cbn [negb] in E.
  - destruct (i_unused i) eqn:U; [discriminate E|]. cbn zeta in E. destruct (Z.ltb_spec (if i_sd i <? 0 then fd else i_sd i) 0) as [L|L]; [discriminate E|].
    inversion E; subst i'. cbn [i_name i_changed i_unused i_addr i_addr6 i_mdns i_sd]. repeat apply conj; auto; discriminate.
  - inversion E; subst i'. repeat apply conj; auto; congruence.
Qed.

Lemma init_settled : forall only es l, settled l -> short_names es -> forall i, In i (iface_init only es l) -> i_unused i = true -> i_changed i = false.
Proof.
  intros only es l [ND F] SN i I U. destruct (init_at only es l ND SN) as [ND' A]. pose proof (in_at _ i ND' I) as E. rewrite A in E.
  destruct (socks only es (i_name i)) as [|s ss] eqn:Es.
  - destruct (at_name l (i_name i)) as [x|] eqn:Ex; [|discriminate E]. inversion E. cbn [mark1 i_changed]. apply at_in in Ex as [Ix _]. rewrite Forall_forall in F. apply F. exact Ix.
  - exfalso. rewrite <- Es in E. set (j := match at_name l (i_name i) with Some i => mark1 i | None => iface_new (i_name i) end) in *.
    inversion E as [E']. destruct (sweep1_addrs (seen (socks only es (i_name i)) j)) as (_ & _ & S3 & _). rewrite <- E', S3 in U.
    destruct (seen_frame (socks only es (i_name i)) j) as (_ & _ & _ & _ & _ & _ & _ & _ & F3 & _). rewrite F3 in U by (rewrite Es; discriminate). discriminate U.
Qed.

Lemma running_settled : forall only fine l, running only fine l -> settled l.
Proof.
  induction 1 as [|l es fds l' R IH SN Fi E|l reload name R IH|l name R IH|l name R IH].
  - split; [constructor|constructor].
  - unfold sys_init in E. pose proof (setup_all_ok fds _ l' E (init_settled only es l IH SN)) as F2.
    destruct (init_at only es l (proj1 IH) SN) as [ND' _]. split.
    + assert (K : map i_name l' = names (iface_init only es l)); [|rewrite K; exact ND'].
      clear - F2. induction F2 as [|i i' m m' (fd & fd6 & H) F IH]; [reflexivity|]. unfold names in *. cbn [map]. rewrite IH. f_equal. apply (setup_iface_ok fd fd6). exact H.
    + clear - F2. induction F2 as [|i i' m m' (fd & fd6 & H) F IH]; constructor; [|exact IH]. apply (setup_iface_ok fd fd6 i). exact H.
  - unfold conflict. destruct reload; [exact IH|]. destruct IH as [ND F]. split.
    + rewrite map_map. erewrite map_ext; [exact ND|]. intros i. cbv beta. destruct (bytes_eqb _ _); reflexivity.
    + apply Forall_map. eapply Forall_impl; [|exact F]. intros i C. cbv beta. destruct (bytes_eqb _ _); exact C.
  - destruct IH as [ND F]. split.
    + clear - ND. induction l as [|i l IH]; [constructor|]. inversion ND as [|? ? N1 N2]; subst. cbn [filter]. destruct (negb _); [|exact (IH N2)]. cbn [map]. constructor; [|exact (IH N2)].
      intros K. apply N1. apply in_map_iff in K as (x & Ex & Ix). apply filter_In in Ix as [Ix _]. rewrite <- Ex. apply in_map. exact Ix.
    + apply Forall_forall. intros i I. apply filter_In in I as [I _]. rewrite Forall_forall in F. exact (F i I).
  - destruct IH as [ND F]. unfold lose6. split.
    + rewrite map_map. erewrite map_ext; [exact ND|]. intros i. cbv beta. destruct (bytes_eqb _ _); reflexivity.
    + apply Forall_map. eapply Forall_impl; [|exact F]. intros i C. cbv beta. destruct (bytes_eqb _ _); exact C.
Qed.

(* every interface has its context *)
Lemma F2_in_r : forall (P : iface -> iface -> Prop) l l' y, Forall2 P l l' -> In y l' -> exists x, In x l /\ P x y.
Proof.
  intros P l l' y H. induction H as [|x z l l' XZ H IH]; intros I; [contradiction|]. destruct I as [->|I].
  - exists x. split; [left; reflexivity|exact XZ].
  - destruct (IH I) as (w & I' & P'). exists w. split; [right; exact I'|exact P'].
Qed.

Lemma running_mdns : forall only (fine : list entry -> Prop) l, (forall es, fine es -> proper es /\ no_any es) -> running only fine l -> Forall (fun i => i_mdns i = true) l.
Proof.
  intros only fine l Hf R. induction R as [|l es fds l' R IH SN Fi E|l reload name R IH|l name R IH|l name R IH].
  - constructor.
  - pose proof (running_settled only fine l R) as St. unfold sys_init in E. pose proof (setup_all_ok fds _ l' E (init_settled only es l St SN)) as F2.
    destruct (init_at only es l (proj1 St) SN) as [ND' A]. apply Forall_forall. intros i' I'.
    destruct (F2_in_r _ _ _ _ F2 I') as (i & Ii & fd & fd6 & H). destruct (setup_iface_ok fd fd6 i i' H) as (N & _ & _ & _ & _ & M1 & M2 & _).
    destruct (in_dec (list_eq_dec Z.eq_dec) (i_name i) (map i_name l)) as [Y|Y].
    + apply M1. pose proof (in_at _ i ND' Ii) as Ei. rewrite A in Ei. apply in_map_iff in Y as (x & Nx & Ix). rewrite <- Nx, (in_at l x (proj1 St) Ix) in Ei.
      rewrite Forall_forall in IH. specialize (IH x Ix). destruct (socks only es (i_name x)) as [|s ss]; cbn [option_map] in Ei.
      * inversion Ei. exact IH.
      * assert (Q : i = sweep1 (seen (s :: ss) (mark1 x))) by congruence. rewrite Q. destruct (sweep1_addrs (seen (s :: ss) (mark1 x))) as (_ & _ & _ & _ & _ & -> & _).
        destruct (seen_frame (s :: ss) (mark1 x)) as (_ & _ & _ & _ & _ & -> & _). exact IH.
    + apply M2. destruct (Hf es Fi) as [P NA]. exact (proj1 (proj2 (new_changed only es l (proj1 St) SN P NA i Ii Y))).
  - unfold conflict. destruct reload; [exact IH|]. apply Forall_map. eapply Forall_impl; [|exact IH]. intros i C. cbv beta. destruct (bytes_eqb _ _); exact C.
  - apply Forall_forall. intros i I. apply filter_In in I as [I _]. rewrite Forall_forall in IH. exact (IH i I).
  - unfold lose6. apply Forall_map. eapply Forall_impl; [|exact IH]. intros i C. cbv beta. destruct (bytes_eqb _ _); exact C.
Qed.
Lemma exits : forall l, Forall (fun i => i_mdns i = true) l -> reload_all l = Ok tt /\ free_all l = Ok tt.
Proof.
  induction 1 as [|i l M F [I1 I2]]; [split; reflexivity|]. cbn [reload_all free_all]. unfold free_iface. rewrite M. cbn [bind]. auto.
Qed.

(* ------------------------------------------------------------------ *)
(* C64 *)
Lemma closer_fold : forall nexts tv, fst (fold_left closer nexts tv) <= fst tv /\ (forall n, In n nexts -> fst (fold_left closer nexts tv) <= fst n) /\ In (fold_left closer nexts tv) (tv :: nexts).
Proof.
  induction nexts as [|n nexts IH]; intros tv; cbn [fold_left]; [split; [lia|split; [intros n []|left; reflexivity]]|].
  destruct (IH (closer tv n)) as (A & B & C).
  assert (K : fst (closer tv n) <= fst tv /\ fst (closer tv n) <= fst n /\ (closer tv n = tv \/ closer tv n = n)) by (unfold closer; destruct (Z.ltb_spec (fst n) (fst tv)); split; [lia|split; [lia|auto]|lia|split; [lia|auto]]).
  destruct K as (K1 & K2 & K3). split; [lia|]. split; [intros m [->|I]; [lia|exact (B m I)]|].
  destruct C as [C|C]; [|right; right; exact C]. rewrite <- C. destruct K3 as [-> | ->]; [left; reflexivity|right; left; reflexivity].
Qed.
Lemma wakes : forall tv timeout nexts n, 0 <= snd tv <= 1000000 -> (forall m, In m nexts -> 0 <= snd m <= 1000000) -> In n nexts ->
  micros (select_timeout tv timeout nexts) <= micros n + 1000000 /\ micros (select_timeout tv timeout nexts) <= timeout * 1000000 + 1000000.
Proof.
  intros tv timeout nexts n T H I. unfold select_timeout, micros. destruct (closer_fold nexts (timeout, snd tv)) as (A & B & C). specialize (B n I). cbn [fst] in A.
  assert (S : 0 <= snd (fold_left closer nexts (timeout, snd tv)) <= 1000000).
  { destruct C as [C|C]; [rewrite <- C; exact T|exact (H _ C)]. }
  specialize (H n I). lia.
Qed.

Lemma init_names : forall only es l, NoDup (map i_name l) -> short_names es ->
  NoDup (map i_name (iface_init only es l)) /\
  forall n, In n (map i_name (iface_init only es l)) <-> In n (map i_name l) \/ listed only es n.
Proof.
  intros only es l ND SN. destruct (init_at only es l ND SN) as [ND' A]. split; [exact ND'|]. intros n.
  assert (Q : forall m, In n (map i_name m) <-> at_name m n <> None).
  { intros m. split.
    - intros I E. exact (at_none m n E I).
    - intros E. destruct (at_name m n) as [x|] eqn:Ex; [|congruence]. apply at_in in Ex as [I <-]. apply in_map. exact I. }
  rewrite (Q (iface_init only es l)), (Q l), A, <- socks_listed. destruct (socks only es n) as [|s ss].
  - destruct (at_name l n); cbn [option_map]; split; try tauto; try (intros _; discriminate). intros _. left. discriminate.
  - split; [intros _; right; discriminate|intros _; discriminate].
Qed.
