(* Vocabulary for what makes the daemon send (C105 to C107). *)
From Verif Require Import Base Wire Rec Qry Out In Api SpecDaemon SpecLife.

(* The conflict callback of X was called during the call. *)
Definition conflict_told (d : daemon) (X : mrec) (d' : daemon) : Prop :=
  exists C cb, conflicts (R d') = conflicts (R d) ++ C /\ conflict X = Some cb /\ In (cb, a_name (rr X), a_type (rr X)) C.

(* The call is a reason to send record r: the record is asked for, a conflict
   over it is reported, its data is set, it is withdrawn, or mdnsd_sleep has
   nothing else to do and finds that its time to live runs out. *)
Definition calls_for (ev : event) (r : nat) : Prop :=
  exists X, record (ev_before ev) r X /\
  match ev_call ev with
  | OIn m from => h_qr (m_header m) = 0 /\ (exists q, In q (m_qd m) /\ wants (ev_before ev) q r X) \/
                  h_qr (m_header m) <> 0 /\ unique X <> 0 /\ conflict_told (ev_before ev) X (ev_after ev)
  | OSetRaw x _ | OSetHost x _ | OSetIp x _ | OSetIp6 x _ | OSetSrv x _ _ _ _ | ODone x => x = r
  | OSetAddress _ => a_type (rr X) = QTYPE_A
  | OSetAddress6 _ => a_type (rr X) = QTYPE_AAAA
  | OSetAddrs h _ => a_name (rr X) = h /\ a_type (rr X) = QTYPE_A
  | OSetAddrs6 h _ => a_name (rr X) = h /\ a_type (rr X) = QTYPE_AAAA
  | OSetIfaddrs _ => a_type (rr X) = QTYPE_A \/ a_type (rr X) = QTYPE_AAAA
  | OShutdown => True
  | OSleep => ~ pending (ev_before ev) /\ fst (last_sent X) + a_ttl (rr X) <= fst (e_now (ev_env ev)) + 2
  | _ => False
  end.

(* The message goes to address a. *)
Definition sends_to (a : addr) (ev : event) : Prop := exists m n, ev_call ev = OOut /\ ev_result ev = RMsg m n /\ o_to m = a.

(* How many questions came from a in queries *)
Definition addr_dec : forall a b : addr, {a = b} + {a <> b}.
Proof. decide equality; try apply Z.eq_dec. apply (list_eq_dec Z.eq_dec). Defined.
Definition questions_in (a : addr) (o : op) : nat :=
  match o with OIn m from => if addr_dec from a then if h_qr (m_header m) =? 0 then length (m_qd m) else O else O | _ => O end.
Definition questions_from (a : addr) (l : list event) : nat := list_sum (map (fun ev => questions_in a (ev_call ev)) l).
