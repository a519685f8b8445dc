(* The query part of mdnsd_out. *)
From Verif Require Import Base Lemmas Hash HashProofs XhtProofs Wire Rec Qry Out In Api RecInv RecSafe RecOps OutSafe QryInv QryOps CacheOps QryReg.

(* Bounds on the timing of queries and on expiry times *)
Definition qnum (s : qrys) : Prop := forall q x, qh s q = Some x -> 0 <= q_tries x <= 3 /\ 0 <= q_next x.
Definition cpos (s : qrys) : Prop := forall i c, In c (centries s i) -> 8 <= a_ttl (c_rr c).

(* The query is due and asked again *)
Definition asks (t : Z) (x : query) : bool := (0 <? q_next x) && (q_next x <=? t) && (q_tries x <? 3).
(* The query is due and was asked three times *)
Definition rests (t : Z) (x : query) : bool := (0 <? q_next x) && (q_next x <=? t) && (q_tries x =? 3).

Definition sooner (best n : Z) : Z := if (best =? 0) || (n <? best) then n else best.

(* A query after its turn *)
Definition after_turn (s : qrys) (t : Z) (x : query) : query :=
  if asks t x then set_qnext x (t + (q_tries x + 1)) (q_tries x + 1)
  else if rests t x then set_qnext x (reset_try (q_nm x) (q_ty x) (filter (alive t) (centries s (cbucket (q_nm x))))) 0
  else x.

Definition question_of (cls : Z) (x : query) : mcall := MQd (q_nm x) (q_ty x) cls.
Definition ka_calls (cls t : Z) (k : query * cached) : list mcall :=
  MRr SAn (q_nm (fst k)) (q_ty (fst k)) cls (a_ttl (c_rr (snd k)) - t) :: a_copy (c_rr (snd k)).

(* The queries behind a list of addresses *)
Definition queries_at (s : qrys) (l : list nat) : list query :=
  flat_map (fun q => match qh s q with Some x => [x] | None => [] end) l.

Lemma query_ask_spec : forall s t cls l m best, (forall q, In q l -> qh s q <> None) ->
  query_ask s t cls l m best =
    Ok (m ++ map (question_of cls) (filter (asks t) (queries_at s l)),
        fold_left sooner (map q_next (filter (fun x => negb (asks t x) && (0 <? q_next x)) (queries_at s l))) best).
Proof.
  intros s t cls l. induction l as [|q l IH]; intros m best L; cbn [query_ask queries_at flat_map filter map fold_left].
  - rewrite app_nil_r. reflexivity.
  - destruct (qh s q) as [x|] eqn:E; [|destruct (L q (or_introl eq_refl) E)]. rewrite (qget_some _ _ _ E). cbn [bind app filter].
    fold (queries_at s l). fold (asks t x). destruct (asks t x) eqn:A; cbn [negb andb map].
    + rewrite IH by (intros p I; apply L; right; exact I). rewrite <- app_assoc. reflexivity.
    + destruct (0 <? q_next x) eqn:P; cbn [andb map fold_left].
      * unfold sooner at 2. destruct ((best =? 0) || (q_next x <? best)); apply IH; intros p I; apply L; right; exact I.
      * apply IH. intros p I. apply L. right. exact I.
Qed.

Lemma known_answers_spec : forall frm cls t name type l m,
  exists cs, known_answers frm cls t name type l m = m ++ flat_map (fun c => MRr SAn name type cls (a_ttl (c_rr c) - t) :: a_copy (c_rr c)) cs /\
    sub cs l /\ Forall (fun c => c_match name type c = true /\ t + 8 < a_ttl (c_rr c)) cs /\
    ((forall c, In c l -> c_match name type c = true -> In c cs) \/
     exists c, In c l /\ c_match name type c = true /\ (a_ttl (c_rr c) <= t + 8 \/ frm <= mlen (known_answers frm cls t name type l m) + rr_len (c_rr c))).
Proof.
  intros frm cls t name type l. induction l as [|c l IH]; intros m; cbn [known_answers].
  - exists []. cbn [flat_map]. rewrite app_nil_r. repeat split; try constructor. intros c [].
  - destruct (c_match name type c) eqn:M.
    + destruct ((t + 8 <? a_ttl (c_rr c)) && (mlen m + rr_len (c_rr c) <? frm)) eqn:B.
      * destruct (IH (m ++ MRr SAn name type cls (a_ttl (c_rr c) - t) :: a_copy (c_rr c))) as (cs & E & S & F & G). exists (c :: cs). split; [rewrite E, <- app_assoc; reflexivity|].
        split; [constructor; exact S|]. apply andb_true_iff in B as [B _]. split; [constructor; [split; [exact M|lia]|exact F]|]. destruct G as [G|(y & Iy & G)].
        -- left. intros y [<-|I] My; [left; reflexivity|right; apply G; assumption].
        -- right. exists y. split; [right; exact Iy|exact G].
      * exists []. cbn [flat_map]. rewrite app_nil_r. split; [reflexivity|]. split; [clear; induction (c :: l); constructor; assumption|]. split; [constructor|].
        right. exists c. split; [left; reflexivity|]. split; [exact M|]. apply andb_false_iff in B as [B|B]; [left|right]; lia.
    + destruct (IH m) as (cs & E & S & F & G). exists cs. split; [exact E|]. split; [constructor; exact S|]. split; [exact F|]. destruct G as [G|(y & Iy & G)].
      * left. intros y [<-|I] My; [congruence|apply G; assumption].
      * right. exists y. split; [right; exact Iy|exact G].
Qed.

Lemma tail_after_mid : forall a x b, ~ In x a -> tail_after x (a ++ x :: b) = b.
Proof.
  induction a as [|y a IH]; intros x b N; cbn [app tail_after]; [rewrite Nat.eqb_refl; reflexivity|].
  destruct (Nat.eqb_spec y x) as [->|D]; [destruct N; left; reflexivity|]. apply IH. intros I. apply N. right. exact I.
Qed.

(* Queries up to their timing *)
Definition qsame (a b : option query) : Prop :=
  match a, b with
  | Some x, Some y => q_nm y = q_nm x /\ q_ty y = q_ty x /\ q_cb y = q_cb x
  | None, None => True
  | _, _ => False
  end.

(* Known answers given for a query that is asked *)
Definition ka_ok (s : qrys) (t : Z) (l : list nat) (k : query * cached) : Prop :=
  (exists q, In q l /\ qh s q = Some (fst k)) /\ asks t (fst k) = true /\
  In (snd k) (centries s (cbucket (q_nm (fst k)))) /\ c_match (q_nm (fst k)) (q_ty (fst k)) (snd k) = true /\ t + 8 < a_ttl (c_rr (snd k)).

(* Which known answers are given: all that are fresh, unless one is not fresh or
   does not fit *)
Definition ka_full (s : qrys) (t frm : Z) (l : list nat) (m : list mcall) (ks : list (query * cached)) : Prop :=
  forall q x c, In q l -> qh s q = Some x -> asks t x = true -> In c (centries s (cbucket (q_nm x))) -> c_match (q_nm x) (q_ty x) c = true -> t < a_ttl (c_rr c) -> In (x, c) ks \/
    exists c' m1 m2, In c' (centries s (cbucket (q_nm x))) /\ c_match (q_nm x) (q_ty x) c' = true /\ m = m1 ++ m2 /\ (a_ttl (c_rr c') <= t + 8 \/ frm <= mlen m1 + rr_len (c_rr c')).

(* Entries are those before, or those of them that have not expired *)
Definition swept (t : Z) (s s' : qrys) : Prop :=
  forall i, centries s' i = centries s i \/ centries s' i = filter (alive t) (centries s i).
Lemma filter_alive_twice : forall t l, filter (alive t) (filter (alive t) l) = filter (alive t) l.
Proof. intros t l. induction l as [|c l IH]; [reflexivity|]. cbn [filter]. destruct (alive t c) eqn:A; [cbn [filter]; rewrite A, IH; reflexivity|exact IH]. Qed.
Lemma swept_trans : forall t a b c, swept t a b -> swept t b c -> swept t a c.
Proof. intros t a b c A B i. destruct (A i) as [E|E], (B i) as [F|F]; rewrite F, E; auto. right. apply filter_alive_twice. Qed.
Lemma swept_filter : forall t a b i, swept t a b -> filter (alive t) (centries b i) = filter (alive t) (centries a i).
Proof. intros t a b i S. destruct (S i) as [E|E]; rewrite E; [reflexivity|apply filter_alive_twice]. Qed.
Lemma swept_in : forall t a b i c, swept t a b -> In c (centries b i) -> In c (centries a i).
Proof. intros t a b i c S I. destruct (S i) as [E|E]; rewrite E in I; [exact I|]. apply filter_In in I. apply I. Qed.

Definition told_ok (s s' : qrys) (T : list (nat * answer)) : Prop :=
  told s' = told s ++ T /\ ncb s' = (ncb s + length T)%nat /\ Forall (called s) T.

Lemma reset_try_pos : forall n ty l, (forall c, In c l -> 8 <= a_ttl (c_rr c)) -> 0 <= reset_try n ty l.
Proof.
  intros n ty l L. unfold reset_try. assert (G : forall l b, (forall c, In c l -> 8 <= a_ttl (c_rr c)) -> 0 <= b ->
    0 <= fold_left (fun t c => if c_match n ty c then if (t =? 0) || (a_ttl (c_rr c) - 7 <? t) then a_ttl (c_rr c) - 7 else t else t) l b).
  { clear. induction l as [|c l IH]; intros b L B; cbn [fold_left]; [exact B|]. apply IH; [intros x I; apply L; right; exact I|].
    specialize (L c (or_introl eq_refl)). destruct (c_match n ty c); [|exact B]. destruct (_ || _); lia. }
  apply G; [exact L|lia].
Qed.

Lemma query_loop_spec : forall rest n pre s cb t frm cls m best ret,
  qinv s -> qnum s -> cpos s -> (forall k, cb k = false) -> qlist s = pre ++ rest -> (length rest < n)%nat ->
  exists s' T ks, query_loop n s cb t frm cls (hd_error rest) m best ret =
      Ok (s', m ++ flat_map (ka_calls cls t) ks,
          fold_left sooner (map (fun x => t + (q_tries x + 1)) (filter (asks t) (queries_at s rest))) best,
          ret + zlen (filter (asks t) (queries_at s rest))) /\
    qinv s' /\ qlist s' = qlist s /\ qfresh s' = qfresh s /\ (cfresh s <= cfresh s')%nat /\ swept t s s' /\
    (forall q, In q rest -> qh s' q = option_map (after_turn s t) (qh s q)) /\ (forall q, ~ In q rest -> qh s' q = qh s q) /\
    Forall (ka_ok s t rest) ks /\ told_ok s s' T /\ ka_full s t frm rest (m ++ flat_map (ka_calls cls t) ks) ks.
Proof.
  induction rest as [|i rest IH]; intros n pre s cb t frm cls m best ret H Hn Hc Cb El Ln; destruct n as [|n]; try (cbn [length] in Ln; lia); cbn [hd_error query_loop].
  - exists s, [], []. cbn [flat_map queries_at filter map fold_left]. rewrite !app_nil_r, zlen_nil, Z.add_0_r. split; [reflexivity|]. split; [exact H|].
    split; [reflexivity|]. split; [reflexivity|]. split; [apply le_n|]. split; [intros j; left; reflexivity|]. split; [intros q []|]. split; [reflexivity|]. split; [constructor|].
    split; [unfold told_ok; rewrite app_nil_r; cbn [length]; split; [reflexivity|]; split; [lia|constructor]|]. intros q x c [].
  - assert (Li : In i (qlist s)) by (rewrite El; apply in_or_app; right; left; reflexivity).
    destruct (qh s i) as [x|] eqn:Ex; [|apply (qi_live _ H) in Li; contradiction]. rewrite (qget_some _ _ _ Ex). cbn [bind].
    pose proof (qi_nodup _ H) as ND. rewrite El in ND. pose proof (NoDup_remove_2 _ _ _ ND) as Ni. rewrite in_app_iff in Ni.
    assert (LK : forall s', qlist s' = qlist s -> qh s' i <> None -> q_link s' i = Ok (hd_error rest)).
    { intros s' E N. unfold q_link. destruct (qh s' i) as [y|] eqn:Ey; [|congruence]. rewrite (qget_some _ _ _ Ey). cbn [bind]. rewrite E, El, tail_after_mid by tauto. reflexivity. }
    destruct (Hn i x Ex) as [N1 N2].
    assert (QA : forall s', (forall q, In q rest -> qh s' q = qh s q) -> queries_at s' rest = queries_at s rest).
    { intros s' E. unfold queries_at. rewrite !flat_map_concat_map. f_equal. apply map_ext_in. intros q I. rewrite (E q I). reflexivity. }
    assert (Q1 : queries_at s (i :: rest) = x :: queries_at s rest) by (unfold queries_at; cbn [flat_map]; rewrite Ex; reflexivity).
    rewrite Q1. cbn [filter].
    assert (TL : (length rest < n)%nat) by (cbn [length] in Ln; lia).
    destruct ((q_next x =? 0) || (t <? q_next x)) eqn:C1.
    + rewrite (LK s eq_refl) by congruence. cbn [bind].
      assert (A : asks t x = false) by (unfold asks; lia). assert (Rs : rests t x = false) by (unfold rests; lia). rewrite A.
      destruct (IH n (pre ++ [i]) s cb t frm cls m best ret H Hn Hc Cb ltac:(rewrite <- app_assoc; exact El) TL) as (s' & T & ks & E' & H' & L1 & L2 & L3 & S' & I' & O' & K' & T' & G').
      exists s', T, ks. split; [exact E'|]. split; [exact H'|]. split; [exact L1|]. split; [exact L2|]. split; [exact L3|]. split; [exact S'|]. split; [|split; [|split; [|split; [exact T'|]]]].
      4:{ intros q y c [<-|I] Ey Ay; [congruence|]. apply (G' q y c I Ey Ay). }
      3:{ eapply Forall_impl; [|exact K']. intros k ((q & I & Eq) & K). split; [|exact K]. exists q. split; [right; exact I|exact Eq]. }
      * intros q [<-|I]; [|apply I'; exact I]. rewrite O' by tauto. rewrite Ex. cbn [option_map]. unfold after_turn. rewrite A, Rs. reflexivity.
      * intros q N. apply O'. intros I. apply N. right. exact I.
    + destruct (q_tries x =? 3) eqn:C2.
      * assert (A : asks t x = false) by (unfold asks; lia). assert (Rs : rests t x = true) by (unfold rests; lia). rewrite A.
        destruct (c_expire_spec s t cb (cbucket (q_nm x)) H (cbucket_lt _)) as (s1 & T1 & E1 & H1 & S1 & _ & _ & Z1). rewrite E1. cbn [bind].
        destruct (Z1 Cb) as (Z2 & Z3 & Z4 & Z5 & Z6 & _). assert (Ex1 : qh s1 i = Some x) by (rewrite Z2; exact Ex).
        unfold q_reset. rewrite (qget_some _ _ _ Ex1). cbn [bind]. cbv zeta. rewrite Z5. set (tt := reset_try _ _ _).
        set (s2 := qset s1 i (set_qnext x tt 0)). assert (H2 : qinv s2) by (eapply qset_inv; [exact H1|exact Ex1|reflexivity|reflexivity]).
        set (s3 := if negb (tt =? 0) && (tt <? checkq s2) then set_checkq s2 tt else s2).
        assert (H3 : qinv s3) by (unfold s3; destruct (_ && _); [apply set_checkq_inv|]; exact H2).
        assert (F3 : qh s3 = qh s2 /\ qlist s3 = qlist s /\ qfresh s3 = qfresh s /\ (cfresh s <= cfresh s3)%nat /\ cache s3 = cache s1 /\ told s3 = told s1 /\ ncb s3 = ncb s1).
        { destruct S1. unfold s3; destruct (_ && _); repeat split; cbn [s2 qset set_qh set_checkq qlist qfresh cfresh]; try congruence; try lia. }
        destruct F3 as (G1 & G2 & G3 & G4 & G5 & G6 & G7).
        assert (G8 : forall q, qh s3 q = if Nat.eqb q i then Some (set_qnext x tt 0) else qh s q).
        { intros q. rewrite G1. cbn [s2 qset set_qh qh]. rewrite Z2. reflexivity. }
        rewrite (LK s3 G2) by (rewrite G8, Nat.eqb_refl; congruence). cbn [bind].
        assert (SW : swept t s s3).
        { intros j. unfold centries at 1 3. rewrite G5. fold (centries s1 j). destruct (Nat.eq_dec j (cbucket (q_nm x))) as [->|D]; [right; exact Z5|left; apply Z6; exact D]. }
        assert (Hc3 : cpos s3) by (intros j c I; apply (Hc j c); eapply swept_in; eassumption).
        assert (Hn3 : qnum s3).
        { intros q y. rewrite G8. destruct (Nat.eqb q i); intros K; [|exact (Hn q y K)]. injection K as <-. cbn [set_qnext q_next q_tries]. split; [lia|].
          apply reset_try_pos. intros c I. apply filter_In in I. apply (Hc _ c (proj1 I)). }
        destruct (IH n (pre ++ [i]) s3 cb t frm cls m best ret H3 Hn3 Hc3 Cb ltac:(rewrite <- app_assoc, G2; exact El) TL) as (s' & T & ks & E' & H' & L1 & L2 & L3 & S' & I' & O' & K' & T' & G').
        rewrite (QA s3) in E' by (intros q I; rewrite G8; replace (Nat.eqb q i) with false; [reflexivity|symmetry; apply Nat.eqb_neq; intros ->; tauto]).
        exists s', (T1 ++ T), ks. split; [exact E'|]. split; [exact H'|]. split; [congruence|]. split; [congruence|]. split; [lia|]. split; [eapply swept_trans; eassumption|].
        split; [|split; [|split; [|split]]].
        -- intros q [<-|I].
           ++ rewrite O' by tauto. rewrite G8, Nat.eqb_refl, Ex. cbn [option_map]. unfold after_turn. rewrite A, Rs. reflexivity.
           ++ rewrite (I' q I), G8. replace (Nat.eqb q i) with false by (symmetry; apply Nat.eqb_neq; intros ->; tauto). destruct (qh s q) as [y|]; [|reflexivity]. cbn [option_map]. f_equal.
              unfold after_turn. rewrite (swept_filter t s s3 _ SW). reflexivity.
        -- intros q N. rewrite O' by (intros I; apply N; right; exact I). rewrite G8. replace (Nat.eqb q i) with false; [reflexivity|]. symmetry; apply Nat.eqb_neq. intros ->. apply N. left. reflexivity.
        -- eapply Forall_impl; [|exact K']. intros [y c] ((q & I & Eq) & A1 & A2 & A3 & A4). cbn [fst snd] in *. rewrite G8 in Eq.
           replace (Nat.eqb q i) with false in Eq by (symmetry; apply Nat.eqb_neq; intros ->; tauto).
           split; [exists q; split; [right; exact I|exact Eq]|]. split; [exact A1|]. split; [eapply swept_in; eassumption|auto].
        -- destruct T' as (T1' & T2' & T3'). destruct S1 as [U1 U2 U3 U4 U5 U6 U7]. split; [rewrite T1', G6, U1, app_assoc; reflexivity|]. split; [rewrite T2', G7, U2, app_length; lia|].
           apply Forall_app. split; [exact U3|]. eapply Forall_impl; [|exact T3']. intros p (q & y & Eq & W1 & W2). rewrite G8 in Eq. destruct (Nat.eqb_spec q i) as [->|D].
           ++ injection Eq as <-. exists i, x. split; [exact Ex|]. auto.
           ++ exists q, y. auto.
        -- intros q y c [<-|I] Ey Ay Ic Mc Fc; [congruence|]. destruct (G' q y c I) as [F|(c' & m1 & m2 & Ic' & F)]; try assumption.
           ++ rewrite G8. replace (Nat.eqb q i) with false by (symmetry; apply Nat.eqb_neq; intros ->; tauto). exact Ey.
           ++ destruct (SW (cbucket (q_nm y))) as [W|W]; rewrite W; [exact Ic|]. apply filter_In. split; [exact Ic|]. unfold alive. lia.
           ++ left. exact F.
           ++ right. exists c', m1, m2. split; [eapply swept_in; eassumption|exact F].
      * assert (A : asks t x = true) by (unfold asks; lia). rewrite A. cbn [map fold_left].
        set (y := set_qnext x (t + (q_tries x + 1)) (q_tries x + 1)). set (s1 := qset s i y).
        assert (H1 : qinv s1) by (eapply qset_inv; [exact H|exact Ex|reflexivity|reflexivity]).
        assert (G8 : forall q, qh s1 q = if Nat.eqb q i then Some y else qh s q) by reflexivity.
        rewrite (LK s1 eq_refl) by (rewrite G8, Nat.eqb_refl; congruence). cbn [bind].
        change (centries s1 (cbucket (q_nm x))) with (centries s (cbucket (q_nm x))).
        destruct (known_answers_spec frm cls t (q_nm x) (q_ty x) (centries s (cbucket (q_nm x))) m) as (cs & Ek & Sk & Fk & Gk). rewrite Ek in *.
        match goal with |- context [query_loop n s1 cb t frm cls (hd_error rest) ?m1 ?b1 ?r1] => set (m1' := m1); set (b1' := b1); set (r1' := r1) end.
        assert (Hn1 : qnum s1).
        { intros q z. rewrite G8. destruct (Nat.eqb q i); intros K; [|exact (Hn q z K)]. injection K as <-. cbn [y set_qnext q_next q_tries]. unfold asks in A. lia. }
        destruct (IH n (pre ++ [i]) s1 cb t frm cls m1' b1' r1' H1 Hn1 Hc Cb ltac:(rewrite <- app_assoc; exact El) TL) as (s' & T & ks & E' & H' & L1 & L2 & L3 & S' & I' & O' & K' & T' & G').
        rewrite (QA s1) in E' by (intros q I; rewrite G8; replace (Nat.eqb q i) with false; [reflexivity|symmetry; apply Nat.eqb_neq; intros ->; tauto]).
        exists s', T, (map (fun c => (x, c)) cs ++ ks). split.
        { rewrite E'. unfold r1'. rewrite zlen_cons. rewrite flat_map_app, app_assoc.
          replace (m ++ flat_map (ka_calls cls t) (map (fun c => (x, c)) cs)) with m1' by (unfold m1'; rewrite !flat_map_concat_map, map_map; reflexivity).
          replace (ret + 1 + zlen (filter (asks t) (queries_at s rest))) with (ret + (1 + zlen (filter (asks t) (queries_at s rest)))) by lia. reflexivity. }
        split; [exact H'|]. split; [exact L1|]. split; [exact L2|]. split; [exact L3|]. split; [exact S'|]. split; [|split; [|split; [|split]]].
        -- intros q [<-|I].
           ++ rewrite O' by tauto. rewrite G8, Nat.eqb_refl, Ex. cbn [option_map]. unfold after_turn. rewrite A. reflexivity.
           ++ rewrite (I' q I), G8. replace (Nat.eqb q i) with false by (symmetry; apply Nat.eqb_neq; intros ->; tauto). destruct (qh s q) as [z|]; reflexivity.
        -- intros q N. rewrite O' by (intros I; apply N; right; exact I). rewrite G8. replace (Nat.eqb q i) with false; [reflexivity|]. symmetry; apply Nat.eqb_neq. intros ->. apply N. left. reflexivity.
        -- apply Forall_app. split.
           ++ apply Forall_forall. intros k I. apply in_map_iff in I. destruct I as (c & <- & I). rewrite Forall_forall in Fk. destruct (Fk c I) as [F1 F2].
              split; [exists i; split; [left; reflexivity|exact Ex]|]. cbn [fst snd]. split; [exact A|]. split; [eapply sub_in; eassumption|auto].
           ++ eapply Forall_impl; [|exact K']. intros k ((q & I & Eq) & K). rewrite G8 in Eq.
              replace (Nat.eqb q i) with false in Eq by (symmetry; apply Nat.eqb_neq; intros ->; tauto). split; [exists q; split; [right; exact I|exact Eq]|exact K].
        -- destruct T' as (T1' & T2' & T3'). split; [exact T1'|]. split; [exact T2'|]. eapply Forall_impl; [|exact T3']. intros p (q & z & Eq & W1 & W2). rewrite G8 in Eq.
           destruct (Nat.eqb_spec q i) as [->|D]; [|exists q, z; auto]. injection Eq as <-. exists i, x. split; [exact Ex|]. auto.
        -- assert (Em : m ++ flat_map (ka_calls cls t) (map (fun c => (x, c)) cs ++ ks) = m1' ++ flat_map (ka_calls cls t) ks).
           { rewrite flat_map_app, app_assoc. f_equal. unfold m1'. rewrite !flat_map_concat_map, map_map. reflexivity. }
           rewrite Em. intros q z c [<-|I] Ez Az Ic Mc Fc.
           ++ rewrite Ex in Ez. injection Ez as <-. destruct Gk as [Gk|(c' & Ic' & M' & Gk)].
              ** left. apply in_or_app. left. apply in_map. apply Gk; assumption.
              ** right. exists c', m1', (flat_map (ka_calls cls t) ks). auto.
           ++ destruct (G' q z c I) as [F|F]; try assumption; [|left; apply in_or_app; right; exact F|right; exact F].
              rewrite G8. replace (Nat.eqb q i) with false by (symmetry; apply Nat.eqb_neq; intros ->; tauto). exact Ez.
Qed.

(* out_query *)
Lemma out_query_spec : forall s cb t frm cls m, qinv s -> qnum s -> cpos s -> (forall k, cb k = false) ->
  exists s' T m' ret, out_query s cb t frm cls m = Ok (s', m ++ m', ret) /\ qinv s' /\ qlist s' = qlist s /\ swept t s s' /\ told_ok s s' T /\
    if negb (checkq s =? 0) && (checkq s <=? t) then
      (forall q, qh s' q = option_map (after_turn s t) (qh s q)) /\
      (exists ks, m' = map (question_of cls) (filter (asks t) (queries_at s (qlist s))) ++ flat_map (ka_calls cls t) ks /\ Forall (ka_ok s t (qlist s)) ks /\ ka_full s t frm (qlist s) (m ++ m') ks) /\
      ret = zlen (filter (asks t) (queries_at s (qlist s))) /\
      checkq s' = fold_left sooner (map (fun x => t + (q_tries x + 1)) (filter (asks t) (queries_at s (qlist s))))
                    (fold_left sooner (map q_next (filter (fun x => negb (asks t x) && (0 <? q_next x)) (queries_at s (qlist s)))) 0)
    else s' = s /\ m' = [] /\ ret = 0.
Proof.
  intros s cb t frm cls m H Hn Hc Cb. unfold out_query. destruct (negb (checkq s =? 0) && (checkq s <=? t)).
  - rewrite query_ask_spec by (intros q I; apply (qi_live _ H); exact I). cbn [bind].
    set (m1 := m ++ _). set (b1 := fold_left _ _ _).
    destruct (query_loop_spec (qlist s) (S (qfresh s)) [] s cb t frm cls m1 b1 0 H Hn Hc Cb eq_refl) as (s' & T & ks & E' & H' & L1 & L2 & L3 & S' & I' & O' & K' & T' & G').
    { assert (LE : (length (qlist s) <= length (seq 0 (qfresh s)))%nat) by (apply NoDup_incl_length; [apply (qi_nodup _ H)|]; intros q I; apply in_seq; apply (qi_live _ H), (qi_fresh _ H) in I; lia).
      rewrite seq_length in LE. lia. }
    rewrite E'. cbn [bind]. eexists. exists T. eexists. eexists. split; [unfold m1; rewrite <- app_assoc; reflexivity|].
    split; [apply set_checkq_inv; exact H'|]. split; [exact L1|]. split; [exact S'|]. split; [exact T'|]. split; [|split; [|split]].
    + intros q. cbn [set_checkq qh]. destruct (in_dec Nat.eq_dec q (qlist s)) as [I|N]; [apply I'; exact I|]. rewrite O' by exact N.
      destruct (qh s q) as [x|] eqn:E; [|reflexivity]. exfalso. apply N. apply (qi_live _ H). congruence.
    + exists ks. split; [reflexivity|]. split; [exact K'|]. unfold m1 in G'. rewrite <- app_assoc in G'. exact G'.
    + reflexivity.
    + reflexivity.
  - exists s, [], [], 0. rewrite app_nil_r. split; [reflexivity|]. split; [exact H|]. split; [reflexivity|]. split; [intros i; left; reflexivity|].
    split; [|auto]. unfold told_ok. rewrite app_nil_r. cbn [length]. split; [reflexivity|]. split; [lia|constructor].
Qed.
