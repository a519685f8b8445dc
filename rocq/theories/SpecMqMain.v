(* Vocabulary for the properties of mquery's command line (C115). *)
From Verif Require Import Base Lib SpecLib Log SpecOptions Wire Rec Qry Out In Api Reent SpecDaemon Step SpecStep Mquery SpecMquery MqMain.

(* What options say.  How numbers and levels are read: C103_number, C72 *)
Definition detail_arg (o : mqopt) : option (list Z) := match o with QDetail s => Some s | _ => None end.
Definition iface_arg (o : mqopt) : option (list Z) := match o with QIface s => Some s | _ => None end.
Definition type_arg (o : mqopt) : option Z := match o with QType s => Some (atoi s) | _ => None end.
Definition wait_arg (o : mqopt) : option Z := match o with QWait s => Some (atoi s) | _ => None end.
(* One that mquery goes on after, and the status it ends with otherwise *)
Definition mq_accepted (o : mqopt) : Prop :=
  match o with QHelp | QBad | QVersion => False | QLevel s => fst (mdnsd_log_level 5 s) <> -1 | _ => True end.
Definition mq_refusal (o : mqopt) : Z := match o with QHelp | QBad | QVersion => 0 | _ => 1 end.
(* -D or -d *)
Definition browses (os : list mqopt) : Prop := In QDevices os \/ exists s, In (QDetail s) os.
(* The interface: the one last given by -i, of up to 15 characters as all names of
   interfaces, otherwise that of the default route (C86) *)
Definition chosen (os : list mqopt) (routes : list route) (name : option (list Z)) : Prop :=
  exists v, last_of iface_arg os v /\ name = match v with Some n => Some (firstn 15 n) | None => option_map (firstn 15) (getifname [] 16 routes) end.
(* The settings are those of the options; of several values the last holds. *)
Record agrees (os : list mqopt) (c : mqconf) : Prop := mkagrees {
  ag_six : m_six c = true <-> In QSix os;
  ag_dev : m_devices c = true <-> browses os;
  ag_term : m_terminate c = true <-> In QTerminate os;
  ag_simple : m_simple c = true <-> In QSimple os;
  ag_detail : last_of detail_arg os (m_detail c);
  ag_iface : last_of iface_arg os (m_iface c);
  ag_type : exists v, last_of type_arg os v /\ m_type c = match v with Some n => n | None => QTYPE_PTR end;
  ag_wait : exists v, last_of wait_arg os v /\ m_wait c = match v with Some n => n | None => 0 end
}.

(* A turn that is given datagrams that are self-contained (C06) and can call
   mdnsd_out three times in the same second *)
Definition usual (i : mqin) : Prop := 0 <= fst (e_now (i_env i)) /\ reading (i_recv i) /\ brings self_contained (i_recv i) /\ timed (i_send i) /\ steady (i_send i).

(* A run of the loop: the packets are those of its turns, in order; the turn that
   ends it, if any, gives the status. *)
Inductive ran {A} (beh : behaviour A) (terminate : bool) (wait start : Z) : loop A -> list mqin -> loop A -> list (addr * list Z) -> option Z -> Prop :=
| ran_on : forall s, ran beh terminate wait start s [] s [] None
| ran_turn : forall s i l s1 sl ps s2 ps2 c, Mquery.turn beh terminate wait start s (i_env i) (i_ready i) (i_recv i) (i_send i) (i_end i) = Ok (s1, sl, ps, Again) ->
    ran beh terminate wait start s1 l s2 ps2 c -> ran beh terminate wait start s (i :: l) s2 (ps ++ ps2) c
| ran_done : forall s i l s1 sl ps, Mquery.turn beh terminate wait start s (i_env i) (i_ready i) (i_recv i) (i_send i) (i_end i) = Ok (s1, sl, ps, Done) ->
    ran beh terminate wait start s (i :: l) s1 ps (Some 0)
| ran_fails : forall s i l s1 sl ps, Mquery.turn beh terminate wait start s (i_env i) (i_ready i) (i_recv i) (i_send i) (i_end i) = Ok (s1, sl, ps, Fails) ->
    ran beh terminate wait start s (i :: l) s1 ps (Some 1).
(* Receiving or sending fails in the turn. *)
Definition broken (i : mqin) : Prop := (i_ready i = true /\ exists e, In (e, Failure) (i_recv i)) \/ exists e, In (e, false) (i_send i).
(* The turn ends when the time of -w is over, or with -T two seconds after a packet. *)
Definition over (terminate : bool) (wait start : Z) (i : mqin) : Prop :=
  (wait <> 0 /\ start + wait <= i_end i) \/ (terminate = true /\ exists last, last <> 0 /\ last + 2 <= i_end i).
