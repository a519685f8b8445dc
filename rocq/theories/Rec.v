(* Model of libmdnsd/mdnsd.c, part 1: published records, the four queues they
   are linked on, and the API functions that only touch records.

   Records live in a heap indexed by numbers, so that use after free is
   visible.  The queue link r->list is an explicit pointer; the hash chains
   (r->next) are lists of record numbers per bucket.  Allocation succeeds. *)
From Verif Require Import Base Hash Wire.

(* struct timeval *)
Definition tv : Type := Z * Z.

(* mdnsd.c:234-242 _tvdiff, in microseconds *)
Definition tvdiff (old new : tv) : Z := (snd new - snd old) + (fst new - fst old) * 1000000.

(* mdnsd.h:57-70 struct mdns_answer.  rdlen is the length of rdata (0 if NULL);
   addresses are 4 and 16 bytes. *)
Record answer : Type := mkanswer {
  a_name : list Z; a_type : Z; a_ttl : Z;
  a_rdata : option (list Z);
  a_ip : list Z; a_ip6 : list Z;
  a_rdname : option (list Z);
  a_prio : Z; a_weight : Z; a_port : Z
}.

Definition zero4 : list Z := repeat 0 4.
Definition zero16 : list Z := repeat 0 16.
(* ip.s_addr == 0, IN6_IS_ADDR_UNSPECIFIED *)
Definition is_zero (ip : list Z) : bool := forallb (fun c => c =? 0) ip.

Definition new_answer (name : list Z) (type ttl : Z) : answer :=
  mkanswer name type ttl None zero4 zero16 None 0 0 0.
Definition set_ttl (a : answer) (t : Z) : answer :=
  mkanswer (a_name a) (a_type a) t (a_rdata a) (a_ip a) (a_ip6 a) (a_rdname a) (a_prio a) (a_weight a) (a_port a).

(* mdnsd.c:83-92 struct mdns_record; the conflict callback is a number, None
   for NULL; r->next is in the bucket lists below. *)
Record mrec : Type := mkmrec {
  rr : answer;
  unique : Z;
  modified : bool;
  tries : Z;
  conflict : option nat;
  last_sent : tv;
  link : option nat
}.
Definition set_rr (r : mrec) (a : answer) : mrec :=
  mkmrec a (unique r) (modified r) (tries r) (conflict r) (last_sent r) (link r).
Definition set_unique (r : mrec) (u : Z) : mrec :=
  mkmrec (rr r) u (modified r) (tries r) (conflict r) (last_sent r) (link r).
Definition set_modified (r : mrec) (b : bool) : mrec :=
  mkmrec (rr r) (unique r) b (tries r) (conflict r) (last_sent r) (link r).
Definition set_tries (r : mrec) (t : Z) : mrec :=
  mkmrec (rr r) (unique r) (modified r) t (conflict r) (last_sent r) (link r).
Definition set_sent (r : mrec) (t : tv) : mrec :=
  mkmrec (rr r) (unique r) (modified r) (tries r) (conflict r) t (link r).
Definition set_link (r : mrec) (p : option nat) : mrec :=
  mkmrec (rr r) (unique r) (modified r) (tries r) (conflict r) (last_sent r) p.

(* The heap of records. *)
Definition heap : Type := nat -> option mrec.
Definition hget (h : heap) (i : nat) : res mrec :=
  match h i with Some r => Ok r | None => UB UseAfterFree end.
Definition hset (h : heap) (i : nat) (r : mrec) : heap :=
  fun j => if Nat.eqb j i then Some r else h j.
Definition hdel (h : heap) (i : nat) : heap :=
  fun j => if Nat.eqb j i then None else h j.

(* Socket addresses (inet_addr_t): family 2 is AF_INET, 10 AF_INET6. *)
Record addr : Type := mkaddr { family : Z; ip : list Z; port : Z }.
Definition AF_INET : Z := 2.
Definition AF_INET6 : Z := 10.

(* mdnsd.c:70-75 struct unicast *)
Record unicast : Type := mkuni { u_id : Z; u_to : addr; u_r : nat }.

(* The record-related fields of struct mdns_daemon, mdnsd.c:94-116, and a log of
   conflict callbacks (which callback, name, type). *)
Record recs : Type := mkrecs {
  hp : heap; fresh : nat;
  pub : list (list nat);
  probing : option nat; a_now : option nat; a_pause : option nat; a_publish : option nat;
  uans : list unicast;
  t_pause : tv; t_probe : tv; t_publish : tv;
  conflicts : list (nat * list Z * Z)
}.

Definition recs_new : recs :=
  mkrecs (fun _ => None) 0 (repeat [] (Z.to_nat SPRIME)) None None None None [] (0, 0) (0, 0) (0, 0) [].

Definition set_hp (s : recs) (h : heap) : recs :=
  mkrecs h (fresh s) (pub s) (probing s) (a_now s) (a_pause s) (a_publish s) (uans s) (t_pause s) (t_probe s) (t_publish s) (conflicts s).
Definition set_pub (s : recs) (p : list (list nat)) : recs :=
  mkrecs (hp s) (fresh s) p (probing s) (a_now s) (a_pause s) (a_publish s) (uans s) (t_pause s) (t_probe s) (t_publish s) (conflicts s).
Definition set_uans (s : recs) (u : list unicast) : recs :=
  mkrecs (hp s) (fresh s) (pub s) (probing s) (a_now s) (a_pause s) (a_publish s) u (t_pause s) (t_probe s) (t_publish s) (conflicts s).
Definition set_tpause (s : recs) (t : tv) : recs :=
  mkrecs (hp s) (fresh s) (pub s) (probing s) (a_now s) (a_pause s) (a_publish s) (uans s) t (t_probe s) (t_publish s) (conflicts s).
Definition set_tprobe (s : recs) (t : tv) : recs :=
  mkrecs (hp s) (fresh s) (pub s) (probing s) (a_now s) (a_pause s) (a_publish s) (uans s) (t_pause s) t (t_publish s) (conflicts s).
Definition set_tpublish (s : recs) (t : tv) : recs :=
  mkrecs (hp s) (fresh s) (pub s) (probing s) (a_now s) (a_pause s) (a_publish s) (uans s) (t_pause s) (t_probe s) t (conflicts s).
Definition add_conflict (s : recs) (c : nat * list Z * Z) : recs :=
  mkrecs (hp s) (fresh s) (pub s) (probing s) (a_now s) (a_pause s) (a_publish s) (uans s) (t_pause s) (t_probe s) (t_publish s) (conflicts s ++ [c]).

(* The four queues. *)
Inductive queue : Type := Probing | Now | Pause | Publish.
Definition queue_eqb (a b : queue) : bool :=
  match a, b with
  | Probing, Probing | Now, Now | Pause, Pause | Publish, Publish => true
  | _, _ => false
  end.
Definition head (s : recs) (q : queue) : option nat :=
  match q with Probing => probing s | Now => a_now s | Pause => a_pause s | Publish => a_publish s end.
Definition set_head (s : recs) (q : queue) (p : option nat) : recs :=
  mkrecs (hp s) (fresh s) (pub s)
         (if queue_eqb q Probing then p else probing s) (if queue_eqb q Now then p else a_now s)
         (if queue_eqb q Pause then p else a_pause s) (if queue_eqb q Publish then p else a_publish s)
         (uans s) (t_pause s) (t_probe s) (t_publish s) (conflicts s).

Definition ptr_eqb (a b : option nat) : bool :=
  match a, b with
  | Some x, Some y => Nat.eqb x y
  | None, None => true
  | _, _ => false
  end.

(* Upper bound on the length of any acyclic queue, used as fuel. *)
Definition qfuel (s : recs) : nat := S (fresh s).

(* ------------------------------------------------------------------ *)
(* Queues *)

(* mdnsd.c:254-262: the loop of _r_remove_list *)
Fixpoint remove_loop (fuel : nat) (h : heap) (tmp : option nat) (r : nat) : res heap :=
  match fuel with
  | O => Hang
  | S fuel =>
      match tmp with
      | None => Ok h
      | Some t =>
          T <- hget h t;;
          if ptr_eqb (link T) (Some r) then
            R <- hget h r;;
            let h := hset h t (set_link T (link R)) in
            R <- hget h r;;
            Ok (hset h r (set_link R None))
          else if ptr_eqb (link T) (Some t) then Ok h
          else remove_loop fuel h (link T) r
      end
  end.

(* mdnsd.c:244-263 _r_remove_list *)
Definition r_remove_list (s : recs) (q : queue) (r : nat) : res recs :=
  if ptr_eqb (head s q) (Some r) then
    R <- hget (hp s) r;;
    Ok (set_hp (set_head s q (link R)) (hset (hp s) r (set_link R None)))
  else
    h <- remove_loop (qfuel s) (hp s) (head s q) r;;
    Ok (set_hp s h).

Definition remove_unless (s : recs) (skip : option queue) (q : queue) (r : nat) : res recs :=
  match head s q, skip with
  | None, _ => Ok s
  | Some _, Some k => if queue_eqb q k then Ok s else r_remove_list s q r
  | Some _, None => r_remove_list s q r
  end.

(* mdnsd.c:265-278 _r_remove_lists *)
Definition r_remove_lists (s : recs) (r : nat) (skip : option queue) : res recs :=
  s <- remove_unless s skip Probing r;;
  s <- remove_unless s skip Now r;;
  s <- remove_unless s skip Pause r;;
  remove_unless s skip Publish r.

(* mdnsd.c:285-288: is r on the list? *)
Fixpoint on_list (fuel : nat) (h : heap) (cur : option nat) (r : nat) : res bool :=
  match fuel with
  | O => Hang
  | S fuel =>
      match cur with
      | None => Ok false
      | Some c => if Nat.eqb c r then Ok true else C <- hget h c;; on_list fuel h (link C) r
      end
  end.

(* mdnsd.c:281-292 _r_push *)
Definition r_push (s : recs) (q : queue) (r : nat) : res recs :=
  b <- on_list (qfuel s) (hp s) (head s q) r;;
  if b : bool then Ok s
  else
    R <- hget (hp s) r;;
    Ok (set_head (set_hp s (hset (hp s) r (set_link R (head s q)))) q (Some r)).

(* 1 <= unique < 5 *)
Definition probes (r : mrec) : bool := negb (unique r =? 0) && (unique r <? 5).

(* mdnsd.c:295-309 _r_publish *)
Definition r_publish (s : recs) (now : tv) (r : nat) : res recs :=
  R <- hget (hp s) r;;
  let R := set_modified R true in
  let s := set_hp s (hset (hp s) r R) in
  if probes R then Ok s
  else
    let s := set_hp s (hset (hp s) r (set_tries R 0)) in
    let s := set_tpublish s now in
    s <- r_remove_lists s r (Some Publish);;
    r_push s Publish r.

(* mdnsd.c:312-336 _r_send *)
Definition r_send (s : recs) (now : tv) (r : nat) : res recs :=
  R <- hget (hp s) r;;
  if tries R <? 4 then Ok (set_tpublish s now)
  else if negb (unique R =? 0) then
    s <- r_remove_lists s r (Some Now);;
    r_push s Now r
  else
    let s := set_tpause s (fst now, snd now + Z.rem (snd now) 100 + 20) in
    s <- r_remove_lists s r (Some Pause);;
    r_push s Pause r.

(* mdnsd.c:339-352 _u_push *)
Definition u_push (s : recs) (r : nat) (id : Z) (to : addr) : recs :=
  set_uans s (mkuni id to r :: uans s).

(* mdnsd.c:355-373 _u_remove *)
Definition u_remove (s : recs) (r : nat) : recs :=
  set_uans s (filter (fun u => negb (Nat.eqb (u_r u) r)) (uans s)).

(* ------------------------------------------------------------------ *)
(* The hash table of records *)

Definition rbucket (name : list Z) : nat := Z.to_nat (bucket_index name SPRIME).
Definition chain_of (s : recs) (name : list Z) : list nat := nth (rbucket name) (pub s) [].

(* r->next and what follows *)
Fixpoint tail_after (r : nat) (l : list nat) : list nat :=
  match l with
  | [] => []
  | x :: t => if Nat.eqb x r then t else tail_after r t
  end.

Definition match_rec (host : list Z) (type : Z) (a : answer) : bool :=
  ((type =? a_type a) || (type =? QTYPE_ANY)) && bytes_eqb (a_name a) host.

(* mdnsd.c:171-176 *)
Fixpoint find_rec (h : heap) (l : list nat) (host : list Z) (type : Z) : res (option nat) :=
  match l with
  | [] => Ok None
  | x :: t =>
      R <- hget h x;;
      if match_rec host type (rr R) then Ok (Some x) else find_rec h t host type
  end.

(* mdnsd.c:164-177 _r_next *)
Definition r_next (s : recs) (r : option nat) (host : list Z) (type : Z) : res (option nat) :=
  match r with
  | None => find_rec (hp s) (chain_of s host) host type
  | Some x =>
      R <- hget (hp s) x;;
      find_rec (hp s) (tail_after x (chain_of s (a_name (rr R)))) host type
  end.

(* mdnsd.c:462-484 _r_done; unlinking from the chain removes one occurrence *)
Fixpoint remove1 (r : nat) (l : list nat) : list nat :=
  match l with
  | [] => []
  | x :: t => if Nat.eqb x r then t else x :: remove1 r t
  end.
Definition r_done (s : recs) (r : nat) : res recs :=
  R <- hget (hp s) r;;
  let i := rbucket (a_name (rr R)) in
  let s := set_pub s (upd (pub s) i (remove1 r (nth i (pub s) []))) in
  let s := u_remove s r in
  Ok (set_hp s (hdel (hp s) r)).

(* mdnsd.c:1592-1613 mdnsd_shared *)
Definition mdnsd_shared (s : recs) (host : list Z) (type ttl : Z) : recs * nat :=
  let r := fresh s in
  let R := mkmrec (new_answer host type ttl) 0 false 0 None (0, 0) None in
  let i := rbucket host in
  (mkrecs (hset (hp s) r R) (S r) (upd (pub s) i (r :: nth i (pub s) []))
          (probing s) (a_now s) (a_pause s) (a_publish s) (uans s) (t_pause s) (t_probe s) (t_publish s) (conflicts s), r).

(* mdnsd.c:1615-1636 mdnsd_unique *)
Definition mdnsd_unique (s : recs) (now : tv) (host : list Z) (type ttl : Z) (cb : option nat) : res (recs * nat) :=
  let '(s, r) := mdnsd_shared s host type ttl in
  R <- hget (hp s) r;;
  let s := set_hp s (hset (hp s) r (mkmrec (rr R) 1 (modified R) (tries R) cb (last_sent R) (link R))) in
  s <- r_remove_lists s r (Some Probing);;
  s <- r_push s Probing r;;
  Ok (set_tprobe s now, r).

(* mdnsd.c:1638-1641 mdnsd_get_published: the records found by following
   mdnsd_record_next (1582-1585) from its result *)
Definition mdnsd_get_published (s : recs) (host : list Z) : list nat := chain_of s host.

(* mdnsd.c:1648-1670 mdnsd_find *)
Fixpoint find_exact (h : heap) (l : list nat) (name : list Z) (type : Z) : res (option nat) :=
  match l with
  | [] => Ok None
  | x :: t =>
      R <- hget h x;;
      if (a_type (rr R) =? type) && bytes_eqb (a_name (rr R)) name then Ok (Some x) else find_exact h t name type
  end.
Definition mdnsd_find (s : recs) (name : list Z) (type : Z) : res (option nat) :=
  find_exact (hp s) (mdnsd_get_published s name) name type.

(* mdnsd.c:1681-1683: unlink r from the probing list, which must contain it *)
Fixpoint unlink_probing (fuel : nat) (h : heap) (cur : option nat) (r : nat) : res heap :=
  match fuel with
  | O => Hang
  | S fuel =>
      match cur with
      | None => UB NullDeref
      | Some c =>
          C <- hget h c;;
          if ptr_eqb (link C) (Some r) then
            R <- hget h r;;
            Ok (hset h c (set_link C (link R)))
          else unlink_probing fuel h (link C) r
      end
  end.

(* mdnsd.c:1672-1692 mdnsd_done *)
Definition mdnsd_done (s : recs) (now : tv) (r : nat) : res recs :=
  R <- hget (hp s) r;;
  if probes R then
    s <- (if ptr_eqb (probing s) (Some r) then Ok (set_head s Probing (link R))
          else h <- unlink_probing (qfuel s) (hp s) (probing s) r;; Ok (set_hp s h));;
    r_done s r
  else
    r_send (set_hp s (hset (hp s) r (set_rr R (set_ttl (rr R) 0)))) now r.

(* mdnsd.c:495-499 _conflict; the callback itself is only logged: it is assumed
   not to call the library *)
Definition r_conflict (s : recs) (now : tv) (r : nat) : res recs :=
  R <- hget (hp s) r;;
  match conflict R with
  | None => UB NullDeref
  | Some cb => mdnsd_done (add_conflict s (cb, a_name (rr R), a_type (rr R))) now r
  end.

(* ------------------------------------------------------------------ *)
(* Setting data *)

Definition with_rr (s : recs) (r : nat) (f : answer -> answer) : res recs :=
  R <- hget (hp s) r;;
  Ok (set_hp s (hset (hp s) r (set_rr R (f (rr R))))).

Definition put_raw (d : list Z) (a : answer) : answer :=
  mkanswer (a_name a) (a_type a) (a_ttl a) (Some d) (a_ip a) (a_ip6 a) (a_rdname a) (a_prio a) (a_weight a) (a_port a).
Definition put_host (n : list Z) (a : answer) : answer :=
  mkanswer (a_name a) (a_type a) (a_ttl a) (a_rdata a) (a_ip a) (a_ip6 a) (Some n) (a_prio a) (a_weight a) (a_port a).
Definition put_ip (i : list Z) (a : answer) : answer :=
  mkanswer (a_name a) (a_type a) (a_ttl a) (a_rdata a) i (a_ip6 a) (a_rdname a) (a_prio a) (a_weight a) (a_port a).
Definition put_ip6 (i : list Z) (a : answer) : answer :=
  mkanswer (a_name a) (a_type a) (a_ttl a) (a_rdata a) (a_ip a) i (a_rdname a) (a_prio a) (a_weight a) (a_port a).
Definition put_srv (p w q : Z) (a : answer) : answer :=
  mkanswer (a_name a) (a_type a) (a_ttl a) (a_rdata a) (a_ip a) (a_ip6 a) (a_rdname a) p w q.

(* mdnsd.c:1694-1705 mdnsd_set_raw, 1707-1716 mdnsd_set_host, 1718-1722
   mdnsd_set_ip, 1724-1728 mdnsd_set_ipv6, 1730-1736 mdnsd_set_srv *)
Definition mdnsd_set (s : recs) (now : tv) (r : nat) (f : answer -> answer) : res recs :=
  s <- with_rr s r f;; r_publish s now r.
Definition mdnsd_set_raw (s : recs) (now : tv) (r : nat) (d : list Z) : res recs := mdnsd_set s now r (put_raw d).
Definition mdnsd_set_host (s : recs) (now : tv) (r : nat) (n : list Z) : res recs := mdnsd_set s now r (put_host n).
Definition mdnsd_set_ip (s : recs) (now : tv) (r : nat) (i : list Z) : res recs := mdnsd_set s now r (put_ip i).
Definition mdnsd_set_ipv6 (s : recs) (now : tv) (r : nat) (i : list Z) : res recs := mdnsd_set s now r (put_ip6 i).
Definition mdnsd_set_srv (s : recs) (now : tv) (r : nat) (p w q : Z) (n : list Z) : res recs :=
  mdnsd_set s now r (fun a => put_host n (put_srv p w q a)).

(* ------------------------------------------------------------------ *)
(* Address management *)

(* The address of a record used for this type: mdnsd.c:1765-1779, 1804-1811 *)
Definition addr_of (type : Z) (a : answer) : list Z := if type =? QTYPE_A then a_ip a else a_ip6 a.

(* mdnsd.c:1761-1782: is there a record of this host and type with address ip? *)
Fixpoint has_addr (h : heap) (l : list nat) (host : list Z) (type : Z) (ip : list Z) : res bool :=
  match l with
  | [] => Ok false
  | x :: t =>
      R <- hget h x;;
      if (a_type (rr R) =? type) && bytes_eqb (a_name (rr R)) host && bytes_eqb (addr_of type (rr R)) ip then Ok true
      else has_addr h t host type ip
  end.

(* mdnsd.c:1758-1797: add what is missing *)
Fixpoint add_addrs (s : recs) (now : tv) (host : list Z) (type ttl : Z) (addrs : list (list Z)) : res recs :=
  match addrs with
  | [] => Ok s
  | i :: t =>
      b <- has_addr (hp s) (chain_of s host) host type i;;
      s <- (if b : bool then Ok s
            else
              let '(s, r) := mdnsd_shared s host type ttl in
              if type =? QTYPE_A then mdnsd_set_ip s now r i else mdnsd_set_ipv6 s now r i);;
      add_addrs s now host type ttl t
  end.

(* mdnsd.c:1800-1819: withdraw what is not wanted.  The loop fetches next
   before mdnsd_done, which removes at most the current record from the chain,
   so it visits the records that were in the chain at the start. *)
Fixpoint drop_addrs (s : recs) (now : tv) (l : list nat) (host : list Z) (type : Z) (addrs : list (list Z)) : res recs :=
  match l with
  | [] => Ok s
  | x :: t =>
      R <- hget (hp s) x;;
      s <- (if (a_type (rr R) =? type) && bytes_eqb (a_name (rr R)) host
               && negb (existsb (bytes_eqb (addr_of type (rr R))) addrs)
            then mdnsd_done s now x else Ok s);;
      drop_addrs s now t host type addrs
  end.

(* mdnsd.c:1739-1822 _update_addresses_for_host, type A or AAAA *)
Definition update_addresses (s : recs) (now : tv) (host : list Z) (type : Z) (addrs : list (list Z)) : res recs :=
  f <- mdnsd_find s host type;;
  ttl <- match f with
         | None => Ok 120
         | Some r => R <- hget (hp s) r;; Ok (if a_ttl (rr R) =? 0 then 120 else a_ttl (rr R))
         end;;
  s <- add_addrs s now host type ttl addrs;;
  drop_addrs s now (chain_of s host) host type addrs.

(* An entry of getifaddrs(): interface name and address *)
Record ifaddr : Type := mkif { if_name : list Z; if_family : Z; if_ip : list Z }.

(* mdnsd.c:1871-1899: names with an A or AAAA record, each once *)
Fixpoint host_names (h : heap) (l : list nat) (acc : list (list Z)) : res (list (list Z)) :=
  match l with
  | [] => Ok acc
  | x :: t =>
      R <- hget h x;;
      let n := a_name (rr R) in
      if ((a_type (rr R) =? QTYPE_A) || (a_type (rr R) =? QTYPE_AAAA)) && negb (existsb (bytes_eqb n) acc)
      then host_names h t (acc ++ [n]) else host_names h t acc
  end.

(* mdnsd.c:1901-1907 *)
Fixpoint set_hosts (s : recs) (now : tv) (hosts : list (list Z)) (v4 v6 : list (list Z)) : res recs :=
  match hosts with
  | [] => Ok s
  | n :: t =>
      s <- update_addresses s now n QTYPE_A v4;;
      s <- update_addresses s now n QTYPE_AAAA v6;;
      set_hosts s now t v4 v6
  end.

(* mdnsd.c:1834-1917 mdnsd_set_interface_addresses; ifs is what getifaddrs
   returned, None if it failed *)
Definition set_interface_addresses (s : recs) (now : tv) (ifs : option (list ifaddr)) (ifname : list Z) : res recs :=
  match ifs with
  | None => Ok s
  | Some ifs =>
      let mine := filter (fun i => bytes_eqb (if_name i) ifname) ifs in
      let v4 := map if_ip (filter (fun i => if_family i =? AF_INET) mine) in
      let v6 := map if_ip (filter (fun i => if_family i =? AF_INET6) mine) in
      hosts <- host_names (hp s) (concat (pub s)) [];;
      set_hosts s now hosts v4 v6
  end.

(* mdnsd.c:949-969 and 985-1005: the loop over all records *)
Fixpoint set_all (s : recs) (now : tv) (l : list nat) (type : Z) (ip : list Z) : res recs :=
  match l with
  | [] => Ok s
  | x :: t =>
      R <- hget (hp s) x;;
      s <- (if a_type (rr R) =? type then
              if is_zero ip then
                Ok (set_head (set_hp s (hset (hp s) x (set_link (set_rr R (set_ttl (rr R) 0)) (a_now s)))) Now (Some x))
              else if type =? QTYPE_A then mdnsd_set_ip s now x ip else mdnsd_set_ipv6 s now x ip
            else Ok s);;
      set_all s now t type ip
  end.

(* mdnsd.c:1024-1034: the loop of mdnsd_shutdown *)
Fixpoint shutdown_all (s : recs) (l : list nat) : res recs :=
  match l with
  | [] => Ok s
  | x :: t =>
      R <- hget (hp s) x;;
      shutdown_all (set_head (set_hp s (hset (hp s) x (set_link (set_rr R (set_ttl (rr R) 0)) (a_now s)))) Now (Some x)) t
  end.
Definition shutdown_recs (s : recs) : res recs := shutdown_all (set_head s Now None) (concat (pub s)).

(* mdnsd.c:1992-2007 records_clear; the chains are emptied at the end *)
Fixpoint clear_all (s : recs) (l : list nat) : res recs :=
  match l with
  | [] => Ok s
  | x :: t =>
      _ <- hget (hp s) x;;
      s <- r_remove_lists s x None;;
      let s := u_remove s x in
      clear_all (set_hp s (hdel (hp s) x)) t
  end.
Definition records_clear (s : recs) : res recs :=
  s <- clear_all s (concat (pub s));;
  Ok (set_pub s (repeat [] (Z.to_nat SPRIME))).
