(* Notions the properties of shutting down are stated with. *)
From Verif Require Import Base Wire Rec Qry Out In Api SpecDaemon.

(* mdnsd_out is called once for each of these environments. *)
Fixpoint outs (d : daemon) (l : list env) : res (daemon * list omsg) :=
  match l with
  | [] => Ok (d, [])
  | e :: l => '(d, m, _) <- mdnsd_out d e;; '(d, ms) <- outs d l;; Ok (d, m :: ms)
  end.
(* Nothing is being announced, or the calls come before the next announcement. *)
Definition quiet_for (d : daemon) (l : list env) : Prop :=
  (forall r, ~ waits d Publish r) \/ forall e, In e l -> micros (e_now e) < micros (t_publish (R d)).
