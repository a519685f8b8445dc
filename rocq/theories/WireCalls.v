(* Sequences of calls to the message_* functions of libmdnsd/1035.c. *)
From Verif Require Import Base SpecDns Wire.

Inductive section : Type := An | Ns | Ar.

(* One call.  Names are given as label lists and passed as the string
   [text dot name], i.e. with or without the final dot. *)
Inductive call : Type :=
| CQd (dot : bool) (n : dname) (type class : Z)                  (* 1035.c:428 message_qd *)
| CRr (sec : section) (dot : bool) (n : dname) (type class ttl : Z) (* 448-464 message_an/ns/ar *)
| CLong (v : Z)                                                  (* 466 message_rdata_long *)
| CIp4 (a : list Z)                                              (* 472 message_rdata_ipv4 *)
| CIp6 (a : list Z)                                              (* 479 message_rdata_ipv6 *)
| CName (dot : bool) (n : dname)                                 (* 486 message_rdata_name *)
| CSrv (priority weight port : Z) (dot : bool) (n : dname)       (* 494 message_rdata_srv *)
| CRaw (d : list Z).                                             (* 505 message_rdata_raw *)

Definition do_call (m : enc) (c : call) : enc :=
  match c with
  | CQd dot n ty cl => message_qd m (Some (text dot n)) ty cl
  | CRr An dot n ty cl ttl => message_an m (Some (text dot n)) ty cl ttl
  | CRr Ns dot n ty cl ttl => message_ns m (Some (text dot n)) ty cl ttl
  | CRr Ar dot n ty cl ttl => message_ar m (Some (text dot n)) ty cl ttl
  | CLong v => rdata_long m v
  | CIp4 a => rdata_ipv4 m a
  | CIp6 a => rdata_ipv6 m a
  | CName dot n => rdata_name m (Some (text dot n))
  | CSrv p w q dot n => rdata_srv m p w q (Some (text dot n))
  | CRaw d => rdata_raw m d (zlen d)
  end.

(* A message built by a sequence of calls. *)
Definition run (calls : list call) : enc := fold_left do_call calls enc_empty.

(* The name a call writes, how many bytes it writes before and after it. *)
Definition call_name (c : call) : option dname :=
  match c with
  | CQd _ n _ _ => Some n
  | CRr _ _ n _ _ _ => Some n
  | CName _ n => Some n
  | CSrv _ _ _ _ n => Some n
  | _ => None
  end.
Definition bytes_before (c : call) : Z :=
  match c with CName _ _ => 2 | CSrv _ _ _ _ _ => 8 | _ => 0 end.
Definition bytes_after (c : call) : Z :=
  match c with CQd _ _ _ _ => 4 | CRr _ _ _ _ _ _ => 8 | _ => 0 end.

(* All names written by a sequence of calls. *)
Definition call_names (calls : list call) : list dname :=
  flat_map (fun c => match call_name c with Some n => [n] | None => [] end) calls.

(* Arguments in the range of their C types. *)
Definition legal_call (c : call) : Prop :=
  match c with
  | CIp4 a => byte_list a /\ len a = 4
  | CIp6 a => byte_list a /\ len a = 16
  | CRaw d => byte_list d /\ len d < 65536
  | _ => True
  end /\
  match call_name c with Some n => legal_name n | None => True end.

(* The calls that write a whole message. *)
Definition data_call (d : rdata) : call :=
  match d with
  | RAddr4 ip => CIp4 ip
  | RAddr6 ip => CIp6 ip
  | RRaw d => CRaw d
  | RName n => CName true n
  | RSrv p w q n => CSrv p w q true n
  end.
Definition rr_calls (sec : section) (r : rr) : list call :=
  [CRr sec true (owner r) (rtype r) (rclass r) (rttl r); data_call (data r)].
Definition quest_call (q : quest) : call := CQd true (qname q) (qtype q) (qclass q).
Definition message_calls (qs : list quest) (an ns ar : list rr) : list call :=
  map quest_call qs ++ flat_map (rr_calls An) an ++ flat_map (rr_calls Ns) ns ++ flat_map (rr_calls Ar) ar.
