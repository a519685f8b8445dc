(* What a receiver should make of a message: notions for the properties about
   two hosts. *)
From Verif Require Import Base SpecDns Wire Rec Qry Out In Api SpecDaemon Step.

(* A DNS record (SpecDns.v) as part of an outgoing message *)
Definition data_of (x : rdata) : mcall :=
  match x with
  | RAddr4 ip => MIp4 ip
  | RAddr6 ip => MIp6 ip
  | RRaw d => MRaw d
  | RName n => MName (dotted n)
  | RSrv p w q n => MSrv p w q (Some (dotted n))
  end.
Definition item_of (sec : sect) (r : SpecDns.rr) : item := IRecord sec (dotted (owner r)) (rtype r) (rclass r) (rttl r) [data_of (data r)].

(* A question or record as DNS allows it, with names that end in the label tld
   and nowhere else contain it (so that compression keeps them, see C03) *)
Definition sound_item (tld : list Z) (i : item) : Prop :=
  (exists q, i = IQuestion (dotted (qname q)) (qtype q) (qclass q) /\ legal_quest q /\ legal_name (qname q) /\ ends_only_in tld (qname q)) \/
  (exists sec r, i = item_of sec r /\ legal_rr r /\ forall n, In n (rr_names r) -> legal_name n /\ ends_only_in tld n).
(* Its size on the wire without compression *)
Definition item_size (i : item) : Z :=
  match i with
  | IQuestion n _ _ => zlen n + 5
  | IRecord _ n _ _ _ [MIp4 a] | IRecord _ n _ _ _ [MIp6 a] | IRecord _ n _ _ _ [MRaw a] => zlen n + 11 + zlen a
  | IRecord _ n _ _ _ [MName t] => zlen n + 12 + zlen t
  | IRecord _ n _ _ _ [MSrv _ _ _ (Some t)] => zlen n + 18 + zlen t
  | IRecord _ n _ _ _ _ => zlen n + 11
  end.
(* It is small without compression, or with it; then data of up to 2660 bytes *)
Definition small_enough (m : omsg) : Prop :=
  12 + sum (map item_size (items (o_calls m))) <= 4096 \/
  zlen (snd (packet_of m)) <= 1435 /\ forall sec n ty cl ttl d, says m (IRecord sec n ty cl ttl [MRaw d]) -> zlen d <= 2660.
Definition sendable (tld : list Z) (m : omsg) : Prop :=
  u16 (o_id m) /\ (forall i, says m i -> sound_item tld i) /\ small_enough m.

(* The message with the same questions and records *)
Definition heard_data (ty : Z) (l : list mcall) : option (list Z) * known :=
  match l with
  | [MIp4 a] => (Some a, KA a)
  | [MIp6 a] => (Some a, KAAAA a)
  | [MRaw a] => (Some a, if ty =? QTYPE_A then KA a else if ty =? QTYPE_AAAA then KAAAA a else KNone)
  | [MName n] => (None, KName n)
  | [MSrv p w q (Some n)] => (None, KSrv p w q n)
  | _ => (None, KNone)
  end.
Definition heard_record (sec : nat) (i : item) : list resource :=
  match i with
  | IRecord _ n ty cl ttl l =>
      if Nat.eqb (section_of i) sec
      then [mkresource n ty cl ttl (match fst (heard_data ty l) with Some a => zlen a | None => 0 end) (fst (heard_data ty l)) (snd (heard_data ty l))]
      else []
  | _ => []
  end.
Definition heard_question (i : item) : list question := match i with IQuestion n ty cl => [mkquestion n ty cl] | _ => [] end.
(* A response is authoritative; all other flags are clear. *)
Definition heard_header (m : omsg) : header := if o_qr m then mkheader 1 0 1 0 0 0 0 0 else mkheader 0 0 0 0 0 0 0 0.
Definition heard (m : omsg) : message :=
  let l := items (o_calls m) in
  mkmessage (o_id m) (heard_header m) (flat_map heard_question l) (flat_map (heard_record 1) l) (flat_map (heard_record 2) l) (flat_map (heard_record 3) l).

(* The record has its data where a record of its type is expected to have it;
   mdnsd_set_raw can be used on address records as well. *)
Definition set_by_type (x : answer) : Prop := a_type x = QTYPE_A \/ a_type x = QTYPE_AAAA -> a_rdata x = None.
(* The message shows record X among its answers. *)
Definition shows (m : omsg) (X : mrec) : Prop := exists cl, says m (shown SAn cl X).
(* No answer after that one tells a receiver of class cls to forget it. *)
Definition gives (cls : Z) (m : omsg) (X : mrec) : Prop :=
  exists cl pre post, items (o_calls m) = pre ++ shown SAn cl X :: post /\
    forall n ty cl' ttl data, In (IRecord SAn n ty cl' ttl data) post -> n = a_name (rr X) -> ty = a_type (rr X) \/ ty = QTYPE_ANY -> ttl <> 0 /\ cl' <> cls + 32768.
