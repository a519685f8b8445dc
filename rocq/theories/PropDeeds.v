(* Property theorem C120 again: what each thing mdnsd does for an interface amounts to.
   Vocabulary: Context.v, SpecContext.v, SpecStep.v, SpecStepExact.v, SpecDeeds.v. *)
From Verif Require Import Base Hash Wire Rec Qry Out In Api SpecDaemon Step SpecStep SpecStepExact Conf Load ConfInit Context SpecContext SpecDeeds FactsDeeds PropLoad PropConfInit PropContext.

(* Setting up and reloading send nothing; the latter first clears the records.  Serving
   sends what mdnsd_out gives for IPv4, then for IPv6; the interface is given up exactly
   if receiving or sending fails on the IPv4 socket, and then IPv6 is not served. *)
Theorem C120_deeds : forall t ifname l x ps ok, 0 <= fst t -> Forall proper_deed l -> live_on ifname (mkcontexts (context t None) None) l = Ok (x, ps, ok) ->
  acts (mkcontexts (context t None) None) l x ps ok.
Proof. exact interface_acts. Qed.
Print Assumptions C120_deeds.

Example C120_case_deeds : exists x ps, Forall proper_deed both /\ live_on eth0 (mkcontexts (context (1, 0) None) None) both = Ok (x, ps, false) /\ length ps = 7%nat /\ v6 x <> None.
Proof.
  destruct C120_case_both as (x & ps & E & L & d6 & E6 & _). exists x, ps. split; [exact both_proper|]. split; [exact E|]. split; [exact L|]. rewrite E6. discriminate.
Qed.
