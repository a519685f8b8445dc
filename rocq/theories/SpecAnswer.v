(* Where messages go: vocabulary of C92 and C93. *)
From Verif Require Import Base Hash Wire Rec Qry Out In Api SpecDaemon.

(* The group of mDNS: ff02::fb port 5353 for IPv6, 224.0.0.251 port 5353 else *)
Definition group (fam : Z) : addr :=
  mkaddr fam (if fam =? 10 then [255; 2] ++ repeat 0 13 ++ [251] else [224; 0; 0; 251]) 5353.

(* The family set last with mdnsd_set_family, IPv4 at the start *)
Definition family_set (l : list event) : Z := fold_left (fun f ev => match ev_call ev with OSetFamily g => g | _ => f end) l 2.

(* Some waiting record does not fit the message any more. *)
Definition full (d : daemon) (m : omsg) : Prop :=
  exists q y Y, q <> Probing /\ waits d q y /\ record d y Y /\ frame d <= packet_len (encode (o_calls m)) + rr_len (rr Y).

(* The message holds an answer that is record X. *)
Definition knows (m : message) (q : question) (X : mrec) : Prop :=
  exists a, In a (m_an m) /\ rr_name a = q_name q /\ rr_type a = q_type q /\ same_rr a (rr X).
