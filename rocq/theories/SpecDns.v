(* RFC 1035 names and messages, independent of the code.  Nothing here refers
   to the model. *)
From Coq Require Import List ZArith.
Import ListNotations.
Open Scope Z_scope.

(* A label is a byte string, a domain name a list of labels. *)
Notation label := (list Z) (only parsing).
Notation dname := (list (list Z)) (only parsing).

Definition len {A : Type} (l : list A) : Z := Z.of_nat (length l).

(* A label that can be written in a dotted C string: 1 to 63 bytes, none of
   them NUL or '.'. *)
Definition legal_label (l : label) : Prop :=
  1 <= len l <= 63 /\ Forall (fun c => 0 < c < 256 /\ c <> 46) l.

(* The dotted form: each label followed by '.'. *)
Definition dotted (n : dname) : list Z := concat (map (fun l => l ++ [46]) n).

(* A legal non-root name.  Its dotted form has at most 255 characters (RFC
   1035 allows 254, the code one more). *)
Definition legal_name (n : dname) : Prop :=
  n <> [] /\ Forall legal_label n /\ len (dotted n) <= 255.

(* s is a C string denoting n: dotted form with or without the final dot. *)
Definition denotes (s : list Z) (n : dname) : Prop :=
  s = dotted n \/ s ++ [46] = dotted n.

(* The bytes of a memory region. *)
Fixpoint region (get : Z -> Z) (o : Z) (n : nat) : list Z :=
  match n with
  | O => []
  | S n' => get o :: region get (o + 1) n'
  end.

(* RFC 1035 section 4.1.4: in a packet of N bytes, the name n is encoded at
   offset o and its encoding ends before offset e.  Pointers go backwards. *)
Inductive name_at (get : Z -> Z) (N : Z) : Z -> dname -> Z -> Prop :=
| na_root : forall o, 0 <= o < N -> get o = 0 -> name_at get N o [] (o + 1)
| na_label : forall o l n e,
    0 <= o -> o + 1 + len l < N -> get o = len l -> 1 <= len l <= 63 ->
    region get (o + 1) (length l) = l ->
    name_at get N (o + 1 + len l) n e ->
    name_at get N o (l :: n) e
| na_ptr : forall o t n e,
    0 <= o -> o + 1 < N -> 192 <= get o <= 255 -> 0 <= get (o + 1) <= 255 ->
    t = (get o - 192) * 256 + get (o + 1) -> t < o ->
    name_at get N t n e ->
    name_at get N o n (o + 2).

(* As name_at, but every pointer designates a label (not the root and not
   another pointer) at an offset of at most lim. *)
Inductive name_at_simple (get : Z -> Z) (N lim : Z) : Z -> dname -> Z -> Prop :=
| ns_root : forall o, 0 <= o < N -> get o = 0 -> name_at_simple get N lim o [] (o + 1)
| ns_label : forall o l n e,
    0 <= o -> o + 1 + len l < N -> get o = len l -> 1 <= len l <= 63 ->
    region get (o + 1) (length l) = l ->
    name_at_simple get N lim (o + 1 + len l) n e ->
    name_at_simple get N lim o (l :: n) e
| ns_ptr : forall o t n e,
    0 <= o -> o + 1 < N -> 192 <= get o <= 255 -> 0 <= get (o + 1) <= 255 ->
    t = (get o - 192) * 256 + get (o + 1) -> t < o -> t <= lim ->
    1 <= get t <= 63 ->
    name_at_simple get N lim t n e ->
    name_at_simple get N lim o n (o + 2).

(* s is a suffix of n. *)
Definition suffix_of (s n : dname) : Prop := exists p, n = p ++ s.

(* A non-empty suffix of a is a strict prefix of a suffix of b, as "x" of
   "a.x" is of the suffix "x.y" of "b.x.y". *)
Definition clash (a b : dname) : Prop :=
  exists s r, s <> [] /\ r <> [] /\ suffix_of s a /\ suffix_of (s ++ r) b.

(* All names end in the label t, which occurs nowhere else in them. *)
Definition ends_only_in (t : label) (n : dname) : Prop :=
  exists p, n = p ++ [t] /\ ~ In t p.

(* ------------------------------------------------------------------ *)
(* Messages. *)

Inductive rdata : Type :=
| RAddr4 (ip : list Z)                 (* an IPv4 address *)
| RAddr6 (ip : list Z)                 (* an IPv6 address *)
| RRaw (d : list Z)                    (* uninterpreted bytes *)
| RName (n : dname)                    (* NS, CNAME, PTR *)
| RSrv (priority weight port : Z) (n : dname).

Record rr : Type := mkrr {
  owner : dname; rtype : Z; rclass : Z; rttl : Z; data : rdata
}.
Record quest : Type := mkquest { qname : dname; qtype : Z; qclass : Z }.

Definition u16 (v : Z) : Prop := 0 <= v < 65536.
Definition u32 (v : Z) : Prop := 0 <= v < 4294967296.
Definition byte_list (l : list Z) : Prop := Forall (fun c => 0 <= c < 256) l.

(* The data fits the type of the record: addresses for A (1) and AAAA (28), a
   name for NS (2), CNAME (5) and PTR (12), SRV (33), anything else raw. *)
Definition data_fits (ty : Z) (d : rdata) : Prop :=
  match d with
  | RAddr4 ip => ty = 1 /\ len ip = 4 /\ byte_list ip
  | RAddr6 ip => ty = 28 /\ len ip = 16 /\ byte_list ip
  | RRaw d => byte_list d /\ len d < 65536 /\
              ~ In ty [2; 5; 12; 33] /\ (ty = 1 -> len d = 4) /\ (ty = 28 -> len d = 16)
  | RName n => In ty [2; 5; 12]
  | RSrv p w q n => ty = 33 /\ u16 p /\ u16 w /\ u16 q
  end.

(* The names in the data of a record. *)
Definition data_names (d : rdata) : list dname :=
  match d with
  | RName n => [n]
  | RSrv _ _ _ n => [n]
  | _ => []
  end.

Definition rr_names (r : rr) : list dname := owner r :: data_names (data r).

Definition legal_rr (r : rr) : Prop :=
  u16 (rtype r) /\ u16 (rclass r) /\ u32 (rttl r) /\ data_fits (rtype r) (data r).
Definition legal_quest (q : quest) : Prop := u16 (qtype q) /\ u16 (qclass q).

(* Size of the data in raw form. *)
Definition raw_size (d : rdata) : Z :=
  match d with
  | RAddr4 ip => 4 | RAddr6 ip => 16 | RRaw d => len d | _ => 0
  end.

(* The string for a name, with or without the final dot. *)
Definition text (final_dot : bool) (n : dname) : list Z :=
  if final_dot then dotted n else removelast (dotted n).

(* Bytes a message needs once unpacked: 16 per question, 64 per record, its
   names with a terminator each, its data, and room for a printable address. *)
Definition sum (l : list Z) : Z := fold_right Z.add 0 l.
Definition name_size (n : dname) : Z := len (dotted n) + 1.
Definition rr_size (r : rr) : Z := sum (map name_size (rr_names r)) + raw_size (data r) + 46.
Definition unpacked_size (qs : list quest) (rrs : list rr) : Z :=
  16 * len qs + 64 * len rrs + 32 + sum (map (fun q => name_size (qname q)) qs) + sum (map rr_size rrs).

(* Size of a message in wire format without name compression: 12 bytes of
   header, for every name its labels with a length byte each and the root. *)
Definition data_size (d : rdata) : Z :=
  match d with
  | RAddr4 ip => 4 | RAddr6 ip => 16 | RRaw d => len d
  | RName n => name_size n | RSrv _ _ _ n => 6 + name_size n
  end.
Definition quest_wire_size (q : quest) : Z := name_size (qname q) + 4.
Definition rr_wire_size (r : rr) : Z := name_size (owner r) + 10 + data_size (data r).
Definition wire_size (qs : list quest) (rrs : list rr) : Z :=
  12 + sum (map quest_wire_size qs) + sum (map rr_wire_size rrs).
