(* What a .service file is to publish. *)
From Coq Require Import String.
From Verif Require Import Base SpecDns SpecMap SpecTxt Hash Wire Rec Qry Out In Api Conf SpecConf SpecDaemon SpecAddr.
Open Scope list_scope.

(* The names of a service, RFC 6763: its type, its instance, the host it is on,
   and an alias of that host *)
Definition local (n : list Z) : list Z := n ++ ascii_text ".local.".
Definition type_of (s : conf_srec) : list Z := match s_type s with Some t => t | None => ascii_text "_http._tcp" end.
Definition service_type (s : conf_srec) : list Z := local (type_of s).
Definition instance (hostname : list Z) (s : conf_srec) : list Z := (match s_name s with Some n => n | None => hostname end) ++ ascii_text "." ++ service_type s.
Definition rooted (n : list Z) : list Z := if Z.eq_dec (last n 0) 46 then n else n ++ ascii_text ".".
Definition target (hostname : list Z) (s : conf_srec) : list Z := match s_target s with Some t => rooted t | None => local hostname end.
Definition aliases (s : conf_srec) : list (list Z) := match s_cname s with Some c => [rooted c] | None => [] end.
Definition meta : list Z := local (ascii_text "_services._dns-sd._udp").

(* The txt lines key=value as a map *)
Definition put_line (m : fmap) (t : list Z) : fmap := if in_dec Z.eq_dec 61 t then fm_put m (SpecTxt.until 61 t) (Some (SpecTxt.after 61 t)) else m.
Definition txt_map (lines : list (list Z)) : fmap := fold_left put_line lines fm_empty.
(* TXT data with just these *)
Definition txt_holds (lines : list (list Z)) (raw : list Z) : Prop :=
  exists pairs, NoDup (map fst pairs) /\ (forall k v, In (k, v) pairs <-> txt_map lines k = Some v) /\
    raw = match pairs with [] => [0] | _ => txt_data (map (fun p => attr_string (fst p) (snd p)) pairs) end.

(* The records *)
Definition is_ptr (n to : list Z) (a : answer) : Prop := a_name a = n /\ a_type a = QTYPE_PTR /\ a_rdname a = Some to /\ a_ttl a = 120.
Definition is_srv (n : list Z) (port : Z) (to : list Z) (a : answer) : Prop :=
  a_name a = n /\ a_type a = QTYPE_SRV /\ a_rdname a = Some to /\ a_prio a = 0 /\ a_weight a = 0 /\ a_port a = port /\ a_ttl a = 120.
Definition is_cname (n to : list Z) (a : answer) : Prop := a_name a = n /\ a_type a = QTYPE_CNAME /\ a_rdname a = Some to /\ a_ttl a = 120.
Definition is_txt (n : list Z) (lines : list (list Z)) (a : answer) : Prop := a_name a = n /\ a_type a = QTYPE_TXT /\ a_ttl a = 4500 /\ exists raw, a_rdata a = Some raw /\ txt_holds lines raw.
Definition is_address (ifs : list ifaddr) (ifname n : list Z) (a : answer) : Prop :=
  a_name a = n /\ a_ttl a <> 0 /\ ((a_type a = QTYPE_A /\ on_interface ifs ifname AF_INET (a_ip a)) \/ (a_type a = QTYPE_AAAA /\ on_interface ifs ifname AF_INET6 (a_ip6 a))).
Definition shows (d : daemon) (P : answer -> Prop) : Prop := exists r X, record d r X /\ P (rr X).

(* All records of a service are there *)
Definition complete (d : daemon) (ifs : list ifaddr) (ifname hostname : list Z) (s : conf_srec) : Prop :=
  shows d (is_ptr meta (service_type s)) /\
  shows d (is_ptr (service_type s) (instance hostname s)) /\
  shows d (is_srv (instance hostname s) (s_port s mod 65536) (target hostname s)) /\
  shows d (is_txt (instance hostname s) (s_txt s)) /\
  (forall c, In c (aliases s) -> shows d (is_cname c (target hostname s))) /\
  (forall ip, offers d (target hostname s) QTYPE_A ip <-> on_interface ifs ifname AF_INET ip) /\
  (forall ip, offers d (target hostname s) QTYPE_AAAA ip <-> on_interface ifs ifname AF_INET6 ip).
(* The record is one of those of the service *)
Definition part_of (ifs : list ifaddr) (ifname hostname : list Z) (s : conf_srec) (a : answer) : Prop :=
  is_ptr meta (service_type s) a \/ is_ptr (service_type s) (instance hostname s) a \/ is_srv (instance hostname s) (s_port s mod 65536) (target hostname s) a \/
  is_txt (instance hostname s) (s_txt s) a \/ (exists c, In c (aliases s) /\ is_cname c (target hostname s) a) \/ is_address ifs ifname (target hostname s) a.
(* No record but an address is there twice *)
Definition no_double (d : daemon) : Prop :=
  forall r X r' X', record d r X -> record d r' X' -> a_type (rr X) <> QTYPE_A -> a_type (rr X) <> QTYPE_AAAA ->
    a_name (rr X) = a_name (rr X') -> a_type (rr X) = a_type (rr X') -> a_rdname (rr X) = a_rdname (rr X') -> r = r'.

(* The services go together: no instance twice, names of up to 255 bytes, txt
   lines of up to 255 bytes without NUL; what is a type is not also an instance,
   a host or an alias, what is an alias not an instance or a host; *)
Definition names_of (hostname : list Z) (s : conf_srec) : list (list Z) := service_type s :: instance hostname s :: target hostname s :: aliases s.
Record well_named (hostname : list Z) (l : list conf_srec) : Prop := mkwell {
  wn_once : NoDup (map (instance hostname) l);
  wn_short : forall s n, In s l -> In n (names_of hostname s) -> zlen n <= 255;
  wn_lines : forall s t, In s l -> In t (s_txt s) -> zlen t <= 255 /\ ~ In 0 t;
  wn_types : forall s n, In s l -> n = meta \/ (exists s', In s' l /\ n = service_type s') -> n <> instance hostname s /\ n <> target hostname s /\ ~ In n (aliases s);
  wn_alias : forall s s' c, In s l -> In s' l -> In c (aliases s) -> c <> instance hostname s' /\ c <> target hostname s'
}.
(* and a name that points to several others shares its bucket of the table of
   records with no other name, or, if it is the list of types or a type, with no
   instance, host or alias. *)
Definition links (hostname : list Z) (s : conf_srec) : list (list Z * list Z) :=
  (meta, service_type s) :: (service_type s, instance hostname s) :: map (fun c => (c, target hostname s)) (aliases s).
Definition crowded (hostname : list Z) (l : list conf_srec) (n : list Z) : Prop :=
  exists a b, In (n, a) (flat_map (links hostname) l) /\ In (n, b) (flat_map (links hostname) l) /\ a <> b.
Definition listing (l : list conf_srec) (n : list Z) : Prop := n = meta \/ exists s, In s l /\ n = service_type s.
Definition apart (hostname : list Z) (l : list conf_srec) : Prop :=
  forall n m, crowded hostname l n -> In m (meta :: flat_map (names_of hostname) l) -> rbucket n = rbucket m -> n = m \/ (listing l n /\ listing l m).
