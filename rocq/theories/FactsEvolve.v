(* What becomes of a record: partial correctness lemmas about every function
   that touches records, for a relation between a record before and after that
   is closed under the updates the function makes. *)
From Verif Require Import Base Lemmas Hash HashProofs Wire Rec Qry Out In Api RecInv RecSafe RecOps.

Section Evolve.
  Variable rel : mrec -> mrec -> Prop.
  Hypothesis rel_refl : forall X, rel X X.
  Hypothesis rel_trans : forall X Y Z, rel X Y -> rel Y Z -> rel X Z.
  Hypothesis rel_link : forall X p, rel X (set_link X p).

  Definition hevo (h h' : heap) : Prop := forall x Y, h' x = Some Y -> exists X, h x = Some X /\ rel X Y.
  Lemma hevo_refl : forall h, hevo h h.
  Proof. intros h x Y E. exists Y. auto. Qed.
  Lemma hevo_trans : forall a b c, hevo a b -> hevo b c -> hevo a c.
  Proof. intros a b c A B x Z E. destruct (B x Z E) as (Y & EY & R1). destruct (A x Y EY) as (X & EX & R2). exists X. split; [exact EX|]. eapply rel_trans; eassumption. Qed.
  Lemma hevo_set : forall h x X Y, h x = Some X -> rel X Y -> hevo h (hset h x Y).
  Proof.
    intros h x X Y E K y Z EZ. unfold hset in EZ. destruct (Nat.eqb_spec y x) as [->|D]; [injection EZ as <-; exists X; auto|exists Z; auto].
  Qed.
  Lemma hevo_del : forall h x, hevo h (hdel h x).
  Proof. intros h x y Z E. unfold hdel in E. destruct (Nat.eqb y x); [discriminate|]. exists Z. auto. Qed.

  Lemma hget_ok : forall h x X, hget h x = Ok X -> h x = Some X.
  Proof. intros h x X E. unfold hget in E. destruct (h x); [injection E as ->; reflexivity|discriminate]. Qed.

  Lemma remove_loop_evo : forall fuel h t r h', remove_loop fuel h t r = Ok h' -> hevo h h'.
  Proof.
    induction fuel as [|fuel IH]; intros h t r h' E; [discriminate|]. cbn [remove_loop] in E. destruct t as [t|]; [|injection E as <-; apply hevo_refl].
    apply bind_ok in E as (T & ET & E). apply hget_ok in ET. destruct (ptr_eqb (link T) (Some r)).
    - apply bind_ok in E as (X & EX & E). cbv zeta in E. apply bind_ok in E as (X2 & EX2 & E). injection E as <-. apply hget_ok in EX, EX2.
      eapply hevo_trans; [eapply hevo_set; [exact ET|apply (rel_link T (link X))]|]. eapply hevo_set; [exact EX2|apply rel_link].
    - destruct (ptr_eqb (link T) (Some t)); [injection E as <-; apply hevo_refl|]. eapply IH. exact E.
  Qed.
  Lemma r_remove_list_evo : forall s q r s', r_remove_list s q r = Ok s' -> hevo (hp s) (hp s') /\ fresh s' = fresh s.
  Proof.
    intros s q r s' E. unfold r_remove_list in E. destruct (ptr_eqb _ _).
    - apply bind_ok in E as (X & EX & E). injection E as <-. apply hget_ok in EX. split; [|reflexivity]. cbn [set_hp hp]. eapply hevo_set; [exact EX|apply rel_link].
    - apply bind_ok in E as (h & Eh & E). injection E as <-. split; [|reflexivity]. eapply remove_loop_evo. exact Eh.
  Qed.
  Lemma remove_unless_evo : forall s k q r s', remove_unless s k q r = Ok s' -> hevo (hp s) (hp s') /\ fresh s' = fresh s.
  Proof.
    intros s k q r s' E. unfold remove_unless in E. destruct (head s q); [|injection E as <-; split; [apply hevo_refl|reflexivity]].
    destruct k as [k|]; [|eapply r_remove_list_evo; exact E]. destruct (queue_eqb q k); [injection E as <-; split; [apply hevo_refl|reflexivity]|eapply r_remove_list_evo; exact E].
  Qed.
  Lemma r_remove_lists_evo : forall s r k s', r_remove_lists s r k = Ok s' -> hevo (hp s) (hp s') /\ fresh s' = fresh s.
  Proof.
    intros s r k s' E. unfold r_remove_lists in E. apply bind_ok in E as (s1 & E1 & E). apply bind_ok in E as (s2 & E2 & E). apply bind_ok in E as (s3 & E3 & E).
    apply remove_unless_evo in E1 as [A1 B1], E2 as [A2 B2], E3 as [A3 B3], E as [A4 B4]. split; [|congruence].
    eapply hevo_trans; [exact A1|]. eapply hevo_trans; [exact A2|]. eapply hevo_trans; [exact A3|exact A4].
  Qed.
  Lemma r_push_evo : forall s q r s', r_push s q r = Ok s' -> hevo (hp s) (hp s') /\ fresh s' = fresh s.
  Proof.
    intros s q r s' E. unfold r_push in E. apply bind_ok in E as (b & _ & E). destruct b; [injection E as <-; split; [apply hevo_refl|reflexivity]|].
    apply bind_ok in E as (X & EX & E). injection E as <-. apply hget_ok in EX. split; [|reflexivity]. cbn [set_head set_hp hp]. eapply hevo_set; [exact EX|apply rel_link].
  Qed.
  Lemma r_send_evo : forall s t r s', r_send s t r = Ok s' -> hevo (hp s) (hp s') /\ fresh s' = fresh s.
  Proof.
    intros s t r s' E. unfold r_send in E. apply bind_ok in E as (X & EX & E). destruct (tries X <? 4); [injection E as <-; split; [apply hevo_refl|reflexivity]|].
    destruct (negb _).
    - apply bind_ok in E as (s1 & E1 & E). apply r_remove_lists_evo in E1 as [A1 B1]. apply r_push_evo in E as [A2 B2]. split; [eapply hevo_trans; eassumption|exact (eq_trans B2 B1)].
    - cbv zeta in E. apply bind_ok in E as (s1 & E1 & E). apply r_remove_lists_evo in E1 as [A1 B1]. apply r_push_evo in E as [A2 B2]. split; [eapply hevo_trans; eassumption|exact (eq_trans B2 B1)].
  Qed.
  Lemma r_done_evo : forall s r s', r_done s r = Ok s' -> hevo (hp s) (hp s') /\ fresh s' = fresh s.
  Proof. intros s r s' E. unfold r_done in E. apply bind_ok in E as (X & EX & E). injection E as <-. split; [apply hevo_del|reflexivity]. Qed.

  Lemma clear_all_evo : forall l s s', clear_all s l = Ok s' -> hevo (hp s) (hp s') /\ fresh s' = fresh s.
  Proof.
    induction l as [|x l IH]; intros s s' E; cbn [clear_all] in E; [injection E as <-; split; [apply hevo_refl|reflexivity]|].
    apply bind_ok in E as (X & EX & E). apply bind_ok in E as (s1 & E1 & E). apply r_remove_lists_evo in E1 as [A1 B1]. apply IH in E as [A2 B2]. split; [|exact (eq_trans B2 B1)].
    eapply hevo_trans; [exact A1|]. eapply hevo_trans; [|exact A2]. apply hevo_del.
  Qed.
  Lemma records_clear_evo : forall s s', records_clear s = Ok s' -> hevo (hp s) (hp s') /\ fresh s' = fresh s.
  Proof. intros s s' E. unfold records_clear in E. apply bind_ok in E as (s1 & E1 & E). injection E as <-. apply clear_all_evo in E1. exact E1. Qed.

  Section Publish.
    Hypothesis rel_mod : forall X b, rel X (set_modified X b).
    Hypothesis rel_tries : forall X t, rel X (set_tries X t).
    Lemma r_publish_evo : forall s t r s', r_publish s t r = Ok s' -> hevo (hp s) (hp s') /\ fresh s' = fresh s.
    Proof.
      intros s t r s' E. unfold r_publish in E. apply bind_ok in E as (X & EX & E). apply hget_ok in EX. cbv zeta in E. destruct (probes _).
      - injection E as <-. split; [|reflexivity]. cbn [set_hp hp]. eapply hevo_set; [exact EX|apply rel_mod].
      - apply bind_ok in E as (s1 & E1 & E). apply r_remove_lists_evo in E1 as [A1 B1]. apply r_push_evo in E as [A2 B2]. split; [|exact (eq_trans B2 B1)].
        eapply hevo_trans; [|eapply hevo_trans; [exact A1|exact A2]]. cbn [set_tpublish set_hp hp].
        eapply hevo_trans; [eapply hevo_set; [exact EX|apply (rel_mod X true)]|]. eapply hevo_set; [apply hset_same|apply rel_tries].
    Qed.

    Section Data.
      Hypothesis rel_rr : forall X f, keeps_id f -> rel X (set_rr X (f (rr X))).
      Hypothesis rel_ttl : forall X, rel X (set_rr X (set_ttl (rr X) 0)).

      (* Allocation makes new numbers. *)
      Definition bounded (s : recs) : Prop := forall x X, hp s x = Some X -> (x < fresh s)%nat.
      Definition sevo (s s' : recs) : Prop := bounded s -> bounded s' /\ (fresh s <= fresh s')%nat /\
        (forall x Y, (x < fresh s)%nat -> hp s' x = Some Y -> exists X, hp s x = Some X /\ rel X Y) /\
        (forall x Y, (fresh s <= x)%nat -> hp s' x = Some Y -> exists n ty ttl, rel (new_rec n ty ttl) Y).
      Lemma sevo_refl : forall s, sevo s s.
      Proof. intros s B. split; [exact B|]. split; [lia|]. split; [intros x Y _ E; exists Y; auto|]. intros x Y L E. apply B in E. lia. Qed.
      Lemma sevo_trans : forall a b c, sevo a b -> sevo b c -> sevo a c.
      Proof.
        intros a b c A B Ba. destruct (A Ba) as (Bb & A1 & A2 & A3). destruct (B Bb) as (Bc & B1 & B2 & B3). split; [exact Bc|]. split; [lia|]. split.
        - intros x Z L E. destruct (B2 x Z ltac:(lia) E) as (Y & EY & R1). destruct (A2 x Y L EY) as (X & EX & R2). exists X. split; [exact EX|]. eapply rel_trans; eassumption.
        - intros x Z L E. destruct (le_lt_dec (fresh b) x) as [D|D]; [eapply B3; eassumption|]. destruct (B2 x Z D E) as (Y & EY & R1). destruct (A3 x Y L EY) as (n & ty & ttl & R2). exists n, ty, ttl. eapply rel_trans; eassumption.
      Qed.
      Lemma hevo_sevo : forall s s', hevo (hp s) (hp s') /\ fresh s' = fresh s -> sevo s s'.
      Proof.
        intros s s' [A B] Bd. split; [intros x Y E; destruct (A x Y E) as (X & EX & _); apply Bd in EX; lia|]. split; [lia|]. split; [intros x Y _ E; apply A; exact E|].
        intros x Y L E. destruct (A x Y E) as (X & EX & _). apply Bd in EX. lia.
      Qed.

      Lemma mdnsd_set_evo : forall s t r f s', keeps_id f -> mdnsd_set s t r f = Ok s' -> hevo (hp s) (hp s') /\ fresh s' = fresh s.
      Proof.
        intros s t r f s' K E. unfold mdnsd_set, with_rr in E. apply bind_ok in E as (s1 & E1 & E). apply bind_ok in E1 as (X & EX & E1). injection E1 as <-. apply hget_ok in EX.
        apply r_publish_evo in E as [A B]. split; [|exact B]. eapply hevo_trans; [|exact A]. cbn [set_hp hp]. eapply hevo_set; [exact EX|apply rel_rr; exact K].
      Qed.
      Lemma unlink_probing_evo : forall fuel h c r h', unlink_probing fuel h c r = Ok h' -> hevo h h'.
      Proof.
        induction fuel as [|fuel IH]; intros h c r h' E; [discriminate|]. cbn [unlink_probing] in E. destruct c as [c|]; [|discriminate].
        apply bind_ok in E as (X & EX & E). apply hget_ok in EX. destruct (ptr_eqb _ _); [|eapply IH; exact E].
        apply bind_ok in E as (Y & EY & E). injection E as <-. eapply hevo_set; [exact EX|apply rel_link].
      Qed.
      Lemma mdnsd_done_evo : forall s t r s', mdnsd_done s t r = Ok s' -> hevo (hp s) (hp s') /\ fresh s' = fresh s.
      Proof.
        intros s t r s' E. unfold mdnsd_done in E. apply bind_ok in E as (X & EX & E). apply hget_ok in EX. destruct (probes X).
        - apply bind_ok in E as (s1 & E1 & E). apply r_done_evo in E as [A B]. destruct (ptr_eqb _ _).
          + injection E1 as <-. auto.
          + apply bind_ok in E1 as (h & Eh & E1). injection E1 as <-. split; [|exact B]. eapply hevo_trans; [|exact A]. eapply unlink_probing_evo. exact Eh.
        - apply r_send_evo in E as [A B]. split; [|exact B]. eapply hevo_trans; [|exact A]. cbn [set_hp hp]. eapply hevo_set; [exact EX|apply rel_ttl].
      Qed.
      Lemma r_conflict_evo : forall s t r s', r_conflict s t r = Ok s' -> hevo (hp s) (hp s') /\ fresh s' = fresh s.
      Proof.
        intros s t r s' E. unfold r_conflict in E. apply bind_ok in E as (X & EX & E). destruct (conflict X); [|discriminate]. apply mdnsd_done_evo in E. exact E.
      Qed.

      Lemma mdnsd_shared_evo : forall s h ty ttl s' r, mdnsd_shared s h ty ttl = (s', r) -> sevo s s' /\ r = fresh s /\ fresh s' = S (fresh s).
      Proof.
        intros s h ty ttl s' r E. unfold mdnsd_shared in E. injection E as <- <-. split; [|split; reflexivity]. intros B. unfold bounded in *. cbn [fresh hp] in *. split; [|split; [lia|split]].
        - intros x X E. unfold hset in E. destruct (Nat.eqb_spec x (fresh s)) as [->|D]; [lia|]. apply B in E. lia.
        - intros x Y L E. rewrite hset_other in E by lia. exists Y. auto.
        - intros x Y L E. unfold hset in E. destruct (Nat.eqb_spec x (fresh s)) as [->|D]; [injection E as <-; exists h, ty, ttl; apply rel_refl|]. apply B in E. lia.
      Qed.

      Lemma add_addrs_evo : forall l s t h ty ttl s', add_addrs s t h ty ttl l = Ok s' -> sevo s s'.
      Proof.
        induction l as [|i l IH]; intros s t h ty ttl s' E; cbn [add_addrs] in E; [injection E as <-; apply sevo_refl|]. apply bind_ok in E as (b & _ & E). apply bind_ok in E as (s1 & E1 & E).
        apply IH in E. eapply sevo_trans; [|exact E]. destruct b; [injection E1 as <-; apply sevo_refl|]. destruct (mdnsd_shared s h ty ttl) as [s2 r] eqn:E2. apply mdnsd_shared_evo in E2 as (A & _ & _).
        eapply sevo_trans; [exact A|]. apply hevo_sevo. destruct (ty =? QTYPE_A); (eapply mdnsd_set_evo; [|exact E1]); [apply keeps_ip|apply keeps_ip6].
      Qed.
      Lemma drop_addrs_evo : forall l s t h ty a s', drop_addrs s t l h ty a = Ok s' -> sevo s s'.
      Proof.
        induction l as [|x l IH]; intros s t h ty a s' E; cbn [drop_addrs] in E; [injection E as <-; apply sevo_refl|]. apply bind_ok in E as (X & _ & E). apply bind_ok in E as (s1 & E1 & E).
        apply IH in E. eapply sevo_trans; [|exact E]. destruct (_ && _); [|injection E1 as <-; apply sevo_refl]. apply hevo_sevo. eapply mdnsd_done_evo. exact E1.
      Qed.
      Lemma update_addresses_evo : forall s t h ty a s', update_addresses s t h ty a = Ok s' -> sevo s s'.
      Proof.
        intros s t h ty a s' E. unfold update_addresses in E. apply bind_ok in E as (f & _ & E). apply bind_ok in E as (ttl & _ & E). apply bind_ok in E as (s1 & E1 & E).
        eapply sevo_trans; [eapply add_addrs_evo; exact E1|eapply drop_addrs_evo; exact E].
      Qed.
      Lemma set_hosts_evo : forall l s t v4 v6 s', set_hosts s t l v4 v6 = Ok s' -> sevo s s'.
      Proof.
        induction l as [|n l IH]; intros s t v4 v6 s' E; cbn [set_hosts] in E; [injection E as <-; apply sevo_refl|]. apply bind_ok in E as (s1 & E1 & E). apply bind_ok in E as (s2 & E2 & E).
        eapply sevo_trans; [eapply update_addresses_evo; exact E1|]. eapply sevo_trans; [eapply update_addresses_evo; exact E2|]. eapply IH. exact E.
      Qed.
      Lemma set_interface_addresses_evo : forall s t i n s', set_interface_addresses s t i n = Ok s' -> sevo s s'.
      Proof.
        intros s t i n s' E. unfold set_interface_addresses in E. destruct i as [i|]; [|injection E as <-; apply sevo_refl]. cbv zeta in E. apply bind_ok in E as (l & _ & E). eapply set_hosts_evo. exact E.
      Qed.
      Lemma gone_link_evo : forall s x X, hp s x = Some X ->
        hevo (hp s) (hp (set_head (set_hp s (hset (hp s) x (set_link (set_rr X (set_ttl (rr X) 0)) (a_now s)))) Now (Some x))).
      Proof. intros s x X EX. cbn [set_head set_hp hp]. eapply hevo_set; [exact EX|]. eapply rel_trans; [apply rel_ttl|apply rel_link]. Qed.
      Lemma set_all_evo : forall l s t ty i s', set_all s t l ty i = Ok s' -> sevo s s'.
      Proof.
        induction l as [|x l IH]; intros s t ty i s' E; cbn [set_all] in E; [injection E as <-; apply sevo_refl|]. apply bind_ok in E as (X & EX & E). apply hget_ok in EX. apply bind_ok in E as (s1 & E1 & E).
        eapply sevo_trans; [|eapply IH; exact E]. destruct (a_type (rr X) =? ty); [|injection E1 as <-; apply sevo_refl]. apply hevo_sevo. destruct (is_zero i).
        - injection E1 as <-. split; [apply gone_link_evo; exact EX|reflexivity].
        - destruct (ty =? QTYPE_A); (eapply mdnsd_set_evo; [|exact E1]); [apply keeps_ip|apply keeps_ip6].
      Qed.
      Lemma shutdown_all_evo : forall l s s', shutdown_all s l = Ok s' -> sevo s s'.
      Proof.
        induction l as [|x l IH]; intros s s' E; cbn [shutdown_all] in E; [injection E as <-; apply sevo_refl|]. apply bind_ok in E as (X & EX & E). apply hget_ok in EX.
        eapply sevo_trans; [|eapply IH; exact E]. apply hevo_sevo. split; [apply gone_link_evo; exact EX|reflexivity].
      Qed.

    End Data.
  End Publish.
End Evolve.
