(* What C120_deeds is stated with: the effect of each thing mdnsd does for an interface. *)
From Verif Require Import Base Wire Rec Qry Out In Api SpecDaemon Step SpecStep SpecStepExact Free Conf Load ConfInit Context SpecContext.

(* Calls like those of SpecContext.v lead from one state to the other. *)
Definition leads (d d' : daemon) : Prop := exists h, history d h d' /\ Forall daily h.
(* As before, the first call being records_clear *)
Definition anew (d d' : daemon) : Prop := exists ev h, ev_call ev = OClear /\ history d (ev :: h) d' /\ Forall daily h.
Definition paired (P : daemon -> daemon -> Prop) (a b : option daemon) : Prop := match a, b with Some d, Some d' => P d d' | None, None => True | _, _ => False end.

(* Setting up and reloading send nothing.  The first makes the IPv6 context if there is
   an IPv6 socket.  Serving serves IPv4 and then, if the IPv4 socket works, IPv6. *)
Definition acted (x : contexts) (a : deed) (x' : contexts) (ps : list (addr * list Z)) (ok : bool) : Prop :=
  match a with
  | Setup _ six =>
      ps = [] /\ ok = true /\ leads (v4 x) (v4 x') /\
      match v6 x, six with None, Some t => exists d, v6 x' = Some d /\ leads (mdnsd_new t 1 1000) d | _, _ => paired leads (v6 x) (v6 x') end
  | Reload _ => ps = [] /\ ok = true /\ anew (v4 x) (v4 x') /\ paired anew (v6 x) (v6 x')
  | Serve r r6 =>
      exists h ps4 t, does (v4 x) (v4 x') h ps4 t /\
        (ok = true <-> (n_ready r = true -> broken (n_recv r) = false) /\ Forall (fun y => snd y = true) (firstn (length ps4) (n_send r))) /\
        match v6 x, r6, ok with
        | Some d6, Some _, true => exists d6' h6 ps6 t6, v6 x' = Some d6' /\ does d6 d6' h6 ps6 t6 /\ ps = ps4 ++ ps6
        | _, _, _ => v6 x' = v6 x /\ ps = ps4
        end
  end.
(* One after the other, until the IPv4 socket fails *)
Inductive acts : contexts -> list deed -> contexts -> list (addr * list Z) -> bool -> Prop :=
| acts_none x : acts x [] x [] true
| acts_last x a l x' ps : acted x a x' ps false -> acts x (a :: l) x' ps false
| acts_more x a l x1 ps1 x' ps ok : acted x a x1 ps1 true -> acts x1 l x' ps ok -> acts x (a :: l) x' (ps1 ++ ps) ok.
