(* Notions the properties of an interface's life are stated with. *)
From Verif Require Import Base Hash Wire Rec Qry Out In Api SpecDaemon SpecLife SpecLib SpecConf SpecStep SpecSize Step Free Conf Load ConfInit Context.

(* Addresses have the sizes of struct in_addr and struct in6_addr. *)
Definition sized_ifs (e : env) : Prop :=
  forall l i, e_ifs e = Some l -> In i l -> (if_family i = AF_INET -> zlen (if_ip i) = 4) /\ (if_family i = AF_INET6 -> zlen (if_ip i) = 16).
(* What conf_init finds is as the kernel and the caller make it, and no line of a file
   is blank: see C58 and C113. *)
Definition proper_source (s : source) : Prop :=
  zlen (f_line s) = 256 /\ zlen (f_hostbuf s) = 255 /\ (exists h, holds_string (f_hostnm s) h) /\ f_hostid s < 2 ^ 31 /\ f_disk s [] = Missing /\
  (forall p c, f_disk s p = File c -> exists lines last, c = text lines last /\ Forall (fun l => ~ In 10 l /\ zlen l mod 255 <> 0) lines /\ ~ In 10 last) /\
  0 <= fst (e_now (f_env s)) /\ sized_ifs (f_env s).
Definition proper_round (r : round) : Prop := 0 <= fst (e_now (n_env r)) /\ reading (n_recv r) /\ writing (n_send r).
Definition proper_deed (a : deed) : Prop :=
  match a with
  | Setup s six => proper_source s /\ forall t, six = Some t -> 0 <= fst t
  | Reload s => proper_source s
  | Serve r r6 => proper_round r /\ forall x, r6 = Some x -> proper_round x
  end.
(* A round of the deed *)
Definition round_of (a : deed) (r : round) : Prop := match a with Serve r4 r6 => r = r4 \/ r6 = Some r | _ => False end.

(* The calls mdnsd makes on a context while it runs: no queries, and no addresses but
   those of the interface *)
Definition daily (ev : event) : Prop :=
  match ev_call ev with
  | OShared _ _ _ | OUnique _ _ _ (Some _) | OSetRaw _ _ | OSetHost _ _ | OSetSrv _ _ _ _ _ | OSetFamily _ | ORegister _ | OClear | OIn _ _ | OOut | OSleep | OEndStep => True
  | OSetIfaddrs _ => sized_ifs (ev_env ev)
  | _ => False
  end.
(* A context of mdnsd is in state d after these calls. *)
Definition life (h : list event) (d : daemon) : Prop := exists t, 0 <= fst t /\ history (mdnsd_new t 1 1000) h d /\ Forall daily h.
Definition lived (d : daemon) : Prop := exists h, life h d.

(* All records together, each with a question, need no more than the largest packet. *)
Definition roomy (d : daemon) : Prop := exists P, (forall r X, record d r X -> In r P) /\ 12 + room_for d P <= MAX_PACKET_LEN.
