(* Vocabulary for the properties of the interfaces. *)
From Verif Require Import Base Iface.

(* The entries mdnsd looks at: an IPv4 or IPv6 address of an interface that is
   up, does multicast and is no loopback, and that is the one asked for if one
   was *)
Definition usable (only : option (list Z)) (e : entry) : Prop :=
  (exists a, n_sock e = Inet a \/ exists b, n_sock e = Inet6 b) /\ n_loopback e = false /\ n_multicast e = true /\ n_up e = true /\ n_numeric e = true /\
  (only = None \/ only = Some (n_name e)).
(* The interface is listed with this address *)
Definition has_inet (only : option (list Z)) (es : list entry) (name : list Z) (a : Z) : Prop := exists e, In e es /\ usable only e /\ n_name e = name /\ n_sock e = Inet a.
Definition has_inet6 (only : option (list Z)) (es : list entry) (name a : list Z) : Prop := exists e, In e es /\ usable only e /\ n_name e = name /\ n_sock e = Inet6 a.
Definition listed (only : option (list Z)) (es : list entry) (name : list Z) : Prop := exists e, In e es /\ usable only e /\ n_name e = name.

Definition any6 : list Z := repeat 0 16.
(* with an address other than 0.0.0.0 and :: *)
Definition real_addr (only : option (list Z)) (es : list entry) (n : list Z) : Prop :=
  (exists a, has_inet only es n a /\ a <> 0) \/ (exists a, has_inet6 only es n a /\ a <> any6).
(* Preference among IPv6 addresses: global, then unique local (fc00::/7), then
   site local (fec0::/10), then link local (fe80::/10), then :: *)
Definition rank6 (a : list Z) : Z :=
  if bytes_eqb a any6 then 0
  else if (zget a 0 =? 254) && (128 <=? zget a 1) && (zget a 1 <? 192) then 1
  else if (zget a 0 =? 254) && (192 <=? zget a 1) then 2
  else if (zget a 0 =? 252) || (zget a 0 =? 253) then 3
  else 4.
(* IPv4: 0.0.0.0/8 and 169.254.0.0/16 only if nothing else is there *)
Definition routable (a : Z) : Prop := ~ (0 <= a < 2 ^ 24) /\ ~ (2851995648 <= a < 2852061184).

(* Names of interfaces are shorter than IFNAMSIZ *)
Definition short_names (es : list entry) : Prop := forall e, In e es -> zlen (n_name e) <= 15.
(* IPv4 addresses have 32 bits, IPv6 addresses 16 bytes *)
Definition proper (es : list entry) : Prop := forall e, In e es -> match n_sock e with Inet a => 0 <= a < 2 ^ 32 | Inet6 a => bytes a /\ zlen a = 16 | _ => True end.
Definition no_any6 (es : list entry) : Prop := forall e, In e es -> n_sock e <> Inet6 any6.
Definition no_any (es : list entry) : Prop := forall e, In e es -> n_sock e <> Inet 0 /\ n_sock e <> Inet6 any6.

(* The program from its start: scans, each followed by setting up what changed;
   conflicts; interfaces given up after an error, and lost IPv6 sockets *)
Inductive running (only : option (list Z)) (fine : list entry -> Prop) : list iface -> Prop :=
| run_start : running only fine []
| run_scan : forall l es fds l', running only fine l -> short_names es -> fine es -> sys_init only es fds l = Ok l' -> running only fine l'
| run_conflict : forall l reload name, running only fine l -> running only fine (conflict reload name l)
| run_freed : forall l name, running only fine l -> running only fine (filter (fun i => negb (bytes_eqb (i_name i) name)) l)
| run_lose6 : forall l name, running only fine l -> running only fine (lose6 name l).

(* Microseconds of a time span *)
Definition micros (t : timeval) : Z := fst t * 1000000 + snd t.
