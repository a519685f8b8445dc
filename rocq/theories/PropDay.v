(* Property theorem C44, continued: how long an entry stays after its time.
   Vocabulary: SpecDaemon.v, SpecCache.v. *)
From Verif Require Import Base Hash Wire Rec Qry Out In Api SpecDaemon SpecCache Scenario FactsDay.

(* When mdnsd_out has nothing to send, no entry is in the cache a day after its
   time, if the clock does not run back.  Missing: within the day; mdnsd_list
   returns such entries, see C44_refuted. *)
Theorem C44_day_partial : forall t cls frm l d e d' m, 0 <= fst t -> history (mdnsd_new t cls frm) l d -> forward l -> fst (now d) <= fst (e_now e) -> legal d e OOut -> is_shutdown d = false ->
  step d e OOut = Ok (d', RMsg m 0) -> forall c, cache_holds d' c -> fst (e_now e) - 86400 <= a_ttl (c_rr c).
Proof. exact day_at_most. Qed.
Print Assumptions C44_day_partial.

(* Two addresses, received at 1 and at 86000 with TTLs of 100 and 60: both are
   over at 86200 and still there; the sweep at 86402 removes them. *)
Definition old_news : list (tv * op) :=
  [((1, 0), OIn (telling [rr_a (nm 97) 1 100 [10; 0; 0; 5]]) peer); ((86000, 0), OIn (telling [rr_a (nm 98) 1 60 [10; 0; 0; 6]]) peer)].
Definition left_at (t : Z) (d : daemon) : option (list Z * daemon) :=
  match step d (at_ (t, 0)) OOut with Ok (d', RMsg _ 0) => Some (map (fun c => a_ttl (c_rr c)) (concat (cache (Q d'))), d') | _ => None end.
Example C44_case_day : history (mdnsd_new (1, 0) 1 1400) (annals 1400 old_news) (story 1400 old_news) /\ forward (annals 1400 old_news) /\ fst (now (story 1400 old_news)) <= 86200 /\
  legal (story 1400 old_news) (at_ (86200, 0)) OOut /\ is_shutdown (story 1400 old_news) = false /\
  match left_at 86200 (story 1400 old_news) with
  | Some ([a; b], d1) => Z.min a b = 59 /\ Z.max a b = 86038 /\
      match left_at 86402 d1 with
      | Some ([], d2) => True
      | _ => False
      end
  | _ => False
  end.
Proof.
  split; [apply annals_history|]. split.
  - intros ev I. unfold annals, old_news in I. vm_compute in I. destruct I as [<-|[<-|[]]]; vm_compute; discriminate.
  - split; [vm_compute; discriminate|]. split; [apply legalb_ok; vm_compute; reflexivity|]. split; [vm_compute; reflexivity|]. vm_compute. auto.
Qed.
