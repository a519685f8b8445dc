(* What the calls that build a message put into it. *)
From Verif Require Import Base Lemmas Wire Rec Qry Out In Api RecInv RecSafe RecOps OutSafe QryInv QryOps CacheOps QryLoop OutPub OutExtra OutAll OutProbe SpecDaemon.

Definition is_data (c : mcall) : Prop := match c with MQd _ _ _ | MRr _ _ _ _ _ => False | _ => True end.
Definition headed (l : list mcall) : Prop := data_calls l = [].

Lemma a_copy_data : forall x, Forall is_data (a_copy x).
Proof.
  intros x. unfold a_copy. destruct (_ =? _); [repeat constructor|]. destruct (a_rdname x); [repeat constructor|]. destruct (a_rdata x); [repeat constructor|].
  destruct (negb _); [repeat constructor|]. destruct (negb _); repeat constructor.
Qed.
Lemma data_calls_app : forall a b, Forall is_data a -> data_calls (a ++ b) = a ++ data_calls b.
Proof. induction a as [|c a IH]; intros b H; [reflexivity|]. apply Forall_cons_iff in H as [Hc H]. destruct c; try destruct Hc; cbn [app data_calls]; rewrite IH by exact H; reflexivity. Qed.
Lemma items_data : forall a b, Forall is_data a -> items (a ++ b) = items b.
Proof. induction a as [|c a IH]; intros b H; [reflexivity|]. apply Forall_cons_iff in H as [Hc H]. destruct c; try destruct Hc; cbn [app items]; apply IH; exact H. Qed.

Lemma items_rr : forall sec n ty cl ttl x b, headed b ->
  items ((MRr sec n ty cl ttl :: a_copy x) ++ b) = IRecord sec n ty cl ttl (a_copy x) :: items b.
Proof.
  intros sec n ty cl ttl x b H. cbn [app items]. rewrite data_calls_app by apply a_copy_data. rewrite items_data by apply a_copy_data. unfold headed in H. rewrite H, app_nil_r. reflexivity.
Qed.

(* Records one after another *)
Lemma headed_flat : forall (A : Type) (f : A -> list mcall) l b, (forall x, In x l -> f x = [] \/ headed (f x) /\ f x <> []) -> headed b -> headed (flat_map f l ++ b).
Proof.
  intros A f l b. induction l as [|x l IH]; intros H B; [exact B|]. cbn [flat_map]. rewrite <- app_assoc. destruct (H x (or_introl eq_refl)) as [->|[Hx N]]; [apply IH; [intros y I; apply H; right; exact I|exact B]|].
  unfold headed in *. destruct (f x) as [|c t]; [congruence|]. destruct c; try discriminate Hx; reflexivity.
Qed.
Lemma items_flat : forall (A : Type) (f : A -> list mcall) (g : A -> list item) l b,
  (forall x, In x l -> f x = [] \/ headed (f x) /\ f x <> []) -> (forall x c, In x l -> headed c -> items (f x ++ c) = g x ++ items c) -> headed b ->
  items (flat_map f l ++ b) = flat_map g l ++ items b.
Proof.
  intros A f g l b. induction l as [|x l IH]; intros H G B; [reflexivity|]. cbn [flat_map]. rewrite <- !app_assoc. rewrite G; [|left; reflexivity|].
  - rewrite IH; [reflexivity| | |exact B]; intros y; intros; [apply H|apply G]; try right; assumption.
  - apply headed_flat; [|exact B]. intros y I. apply H. right. exact I.
Qed.

(* The answers *)
Definition shown_answer (cls : Z) (X : mrec) : item := shown SAn (cls + flush_bit X) X.
Definition shown_extra (cls : Z) (X : mrec) : item := shown SAr (cls + flush_bit X) X.

Lemma items_answers : forall cls h l b, headed b -> items (calls_of cls h l ++ b) = flat_map (at_rec h (fun X => [shown_answer cls X])) l ++ items b.
Proof.
  intros cls h l b B. unfold calls_of. apply items_flat; [| |exact B].
  - intros x _. unfold at_rec. destruct (h x); [right|left; reflexivity]. split; [reflexivity|discriminate].
  - intros x c _ C. unfold at_rec. destruct (h x); [|reflexivity]. unfold answer_calls. rewrite items_rr by exact C. reflexivity.
Qed.
Lemma items_extras : forall cls h l b, headed b -> items (extras cls h l ++ b) = flat_map (at_rec h (fun X => [shown_extra cls X])) l ++ items b.
Proof.
  intros cls h l b B. unfold extras. apply items_flat; [| |exact B].
  - intros x _. unfold at_rec. destruct (h x); [right|left; reflexivity]. split; [reflexivity|discriminate].
  - intros x c _ C. unfold at_rec. destruct (h x); [|reflexivity]. unfold extra_calls. rewrite items_rr by exact C. reflexivity.
Qed.
Lemma extras_headed : forall cls h l, headed (extras cls h l).
Proof.
  intros cls h l. rewrite <- (app_nil_r (extras cls h l)). apply headed_flat; [|reflexivity]. intros x _. unfold at_rec. destruct (h x); [right|left; reflexivity]. split; [reflexivity|discriminate].
Qed.
Lemma items_response : forall cls h h' l added, items (calls_of cls h l ++ extras cls h' added) =
  flat_map (at_rec h (fun X => [shown_answer cls X])) l ++ flat_map (at_rec h' (fun X => [shown_extra cls X])) added.
Proof.
  intros cls h h' l added. rewrite items_answers by apply extras_headed. f_equal. rewrite <- (app_nil_r (extras cls h' added)). rewrite items_extras by reflexivity. apply app_nil_r.
Qed.
Lemma items_unicast : forall cls X h added, items (uni_calls cls X ++ extras cls h added) =
  IQuestion (a_name (rr X)) (a_type (rr X)) cls :: shown SAn cls X :: flat_map (at_rec h (fun X => [shown_extra cls X])) added.
Proof.
  intros cls X h added. unfold uni_calls. rewrite <- app_comm_cons. cbn [items]. rewrite items_rr by apply extras_headed. f_equal. f_equal. rewrite <- (app_nil_r (extras cls h added)).
  rewrite items_extras by reflexivity. apply app_nil_r.
Qed.

(* Probes *)
Definition shown_probe (cls : Z) (X : mrec) : item := shown SNs cls X.
Lemma items_probe : forall cls h l, items (OutProbe.asks cls h l ++ flat_map (at_rec h (fun X => if probed X then [] else tell_calls cls X)) l) =
  flat_map (at_rec h (fun X => if probed X then [] else [IQuestion (a_name (rr X)) (a_type (rr X)) cls])) l ++
  flat_map (at_rec h (fun X => if probed X then [] else [shown_probe cls X])) l.
Proof.
  intros cls h l. assert (B : headed (flat_map (at_rec h (fun X => if probed X then [] else tell_calls cls X)) l)).
  { rewrite <- (app_nil_r (flat_map _ l)). apply headed_flat; [|reflexivity]. intros x _. unfold at_rec. destruct (h x) as [X|]; [|left; reflexivity]. destruct (probed X); [left; reflexivity|right]. split; [reflexivity|discriminate]. }
  unfold OutProbe.asks. rewrite (items_flat _ _ (at_rec h (fun X => if probed X then [] else [IQuestion (a_name (rr X)) (a_type (rr X)) cls]))); [f_equal| | |exact B].
  - rewrite <- (app_nil_r (flat_map _ l)). rewrite (items_flat _ _ (at_rec h (fun X => if probed X then [] else [shown_probe cls X]))); [apply app_nil_r| | |reflexivity].
    + intros x _. unfold at_rec. destruct (h x) as [X|]; [|left; reflexivity]. destruct (probed X); [left; reflexivity|right]. split; [reflexivity|discriminate].
    + intros x c _ C. unfold at_rec. destruct (h x) as [X|]; [|reflexivity]. destruct (probed X); [reflexivity|]. unfold tell_calls. rewrite items_rr by exact C. reflexivity.
  - intros x _. unfold at_rec. destruct (h x) as [X|]; [|left; reflexivity]. unfold ask_calls. destruct (probed X); [left; reflexivity|right]. split; [reflexivity|discriminate].
  - intros x c _ C. unfold at_rec. destruct (h x) as [X|]; [|reflexivity]. unfold ask_calls. destruct (probed X); reflexivity.
Qed.

(* Queries with their known answers *)
Definition shown_known (cls t : Z) (k : query * cached) : item :=
  IRecord SAn (q_nm (fst k)) (q_ty (fst k)) cls (a_ttl (c_rr (snd k)) - t) (a_copy (c_rr (snd k))).
Lemma items_query : forall cls t l ks, items (map (question_of cls) l ++ flat_map (ka_calls cls t) ks) =
  map (fun x => IQuestion (q_nm x) (q_ty x) cls) l ++ map (shown_known cls t) ks.
Proof.
  intros cls t l ks. assert (B : items (flat_map (ka_calls cls t) ks) = map (shown_known cls t) ks).
  { rewrite <- (app_nil_r (flat_map _ ks)). rewrite (items_flat _ _ (fun k => [shown_known cls t k])); [| | |reflexivity].
    - cbn [items]. rewrite app_nil_r. rewrite flat_map_concat_map. induction ks as [|k ks IH]; [reflexivity|]. cbn [map concat app]. rewrite IH. reflexivity.
    - intros k _. right. split; [reflexivity|discriminate].
    - intros k c _ C. unfold ka_calls. rewrite items_rr by exact C. reflexivity. }
  induction l as [|x l IH]; [exact B|]. cbn [map app]. unfold question_of at 1. cbn [items]. fold (question_of cls). rewrite IH. reflexivity.
Qed.
