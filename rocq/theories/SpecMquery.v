(* Notions the properties of mquery are stated with. *)
From Verif Require Import Base SpecDns SpecMap SpecTxt Wire Rec Qry Out In Api Reent SpecDaemon SpecCache SpecReent Step SpecStep Mquery.

(* The calls of an answer callback: which, and the answer *)
Definition call : Type := (nat * answer)%type.
(* Answers that are there, not the news that one has expired *)
Definition there (c : call) : Prop := a_ttl (snd c) <> 0.

(* All names are those of domain names in presentation: 255 characters *)
Definition short (c : call) : Prop :=
  zlen (a_name (snd c)) <= 255 /\ forall n, a_rdname (snd c) = Some n -> zlen n <= 255.

(* The addresses that host h was said to have, as text, in the order of arrival *)
Definition addresses_in (ntop : Z -> list Z -> list Z) (h : list Z) (c : call) : list (list Z) :=
  let x := snd c in
  if negb (a_ttl x =? 0) && bytes_eqb (a_name x) h then
    if a_type x =? QTYPE_A then [ntop AF_INET (a_ip x)]
    else if a_type x =? QTYPE_AAAA then [ntop AF_INET6 (a_ip6 x)] else []
  else [].
Definition addresses_of (ntop : Z -> list Z -> list Z) (h : list Z) (T : list call) : list (list Z) := flat_map (addresses_in ntop h) T.
(* Each once, where it occurs first *)
Fixpoint firsts (l : list (list Z)) : list (list Z) :=
  match l with [] => [] | x :: l => x :: filter (fun y => negb (bytes_eqb y x)) (firsts l) end.

(* The first call that gives a P *)
Definition first_of {B} (P : call -> B -> Prop) (T : list call) (o : option B) : Prop :=
  match o with
  | Some b => exists T1 c T2, T = T1 ++ c :: T2 /\ P c b /\ forall c' b', In c' T1 -> ~ P c' b'
  | None => forall c b, In c T -> ~ P c b
  end.

(* The call says that instance n is at host and port *)
Definition located (n : list Z) (c : call) (p : list Z * Z) : Prop :=
  there c /\ a_type (snd c) = QTYPE_SRV /\ a_name (snd c) = n /\ a_rdname (snd c) = Some (fst p) /\ fst p <> [] /\ a_port (snd c) = snd p.
(* The call says that attribute k of instance n is v *)
Definition described (n k : list Z) (c : call) (v : list Z) : Prop :=
  there c /\ a_type (snd c) = QTYPE_TXT /\ a_name (snd c) = n /\ v <> [] /\
  exists data strs, a_rdata (snd c) = Some data /\ data <> [] /\ strings_of (uchars data) strs /\ attrs strs k = Some v.
(* The call tells of instance n: a pointer of a service type to it, or where it
   is, or its attributes *)
Definition tells_of (n : list Z) (c : call) : Prop :=
  there c /\
  ((a_type (snd c) = QTYPE_PTR /\ fst c <> PLAIN /\ a_rdname (snd c) = Some n /\ n <> []) \/
   (a_type (snd c) = QTYPE_SRV /\ a_name (snd c) = n /\ exists h, a_rdname (snd c) = Some h /\ h <> []) \/
   (a_type (snd c) = QTYPE_TXT /\ a_name (snd c) = n /\ exists data, a_rdata (snd c) = Some data /\ data <> [])).

(* The states of mquery at the top of its loop, with callbacks beh: sockets give
   bytes, and the clock is not negative. *)
Definition timed (l : list (env * bool)) : Prop := forall e b, In (e, b) l -> 0 <= fst (e_now e).
Inductive session {A} (beh : behaviour A) (a0 : A) (terminate : bool) (wait start : Z) : loop A -> Prop :=
| session_begin : forall t family name type buf s, 0 <= fst t -> fst t = start -> (forall i, is_byte (buf i)) ->
    begin t family name type a0 buf = Ok s -> session beh a0 terminate wait start s
| session_turn : forall s e ready li lo t s' sl ps, session beh a0 terminate wait start s -> 0 <= fst (e_now e) -> reading li -> timed lo ->
    turn beh terminate wait start s e ready li lo t = Ok (s', sl, ps, Again) -> session beh a0 terminate wait start s'.

(* The calls of mdnsd_query that callbacks make when called with T, in order *)
Inductive collected {A} (beh : behaviour A) : A -> list call -> list qcall -> A -> Prop :=
| collected_nil : forall a, collected beh a [] [] a
| collected_call : forall a k x a' l rm T L a'', beh a k x = Ok (a', l, rm) -> collected beh a' T L a'' -> collected beh a ((k, x) :: T) (l ++ L) a''.

(* Without its last dot *)
Definition undotted (h : list Z) : list Z := match rev h with 46 :: r => rev r | _ => h end.
(* ".local." *)
Definition LOCAL : list Z := [46; 108; 111; 99; 97; 108; 46].
Definition no_dot (l : list Z) : Prop := ~ In 46 l.
(* The name of a host is the one given, with or without the .local. suffix *)
Definition meant (given h : list Z) : Prop := h = given \/ h = given ++ [46] \/ h = given ++ LOCAL.

Definition spaces (n : Z) : list Z := repeat 32 (Z.to_nat n).
(* The lines of a device in a table whose second and third column begin at c1
   and c2: its first address and a product beside its name, further addresses
   below.  At least two spaces separate the columns. *)
Definition rows (c1 c2 : Z) (v : device) (product : list Z) (lines : list (list Z)) : Prop :=
  let name := undotted (v_host v) in
  exists first rest g1 g2, v_addrs v = first :: rest /\ 2 <= g1 /\ 2 <= g2 /\ zlen name + g1 = c1 /\ c1 + zlen first + g2 = c2 /\
    lines = (name ++ spaces g1 ++ first ++ spaces g2 ++ product) :: map (fun a => spaces c1 ++ a) rest.
(* A product of the device: that of one of its services, none only if no service has one *)
Definition product_of (s : tables) (v : device) (p : list Z) : Prop :=
  match p with
  | [] => forall i, In i (instances s) -> i_host i = v_host v -> i_product i = []
  | _ => exists i, In i (instances s) /\ i_host i = v_host v /\ i_product i = p
  end.

(* An entry that is up and a default route *)
Definition default_up (r : route) : Prop := 10 <= ro_rc r /\ Z.odd (ro_flags r) = true /\ ro_dest r = 0 /\ ro_mask r = 0.
(* The first of them *)
Definition first_default (l : list route) (r : route) : Prop := exists l1 l2, l = l1 ++ r :: l2 /\ default_up r /\ forall x, In x l1 -> ~ default_up x.

(* The time of the last datagram that is read from the socket *)
Fixpoint latest (last : Z) (l : list (env * received)) : Z :=
  match l with
  | (e, Datagram (_ :: _) _) :: l => latest (fst (e_now e)) l
  | _ => last
  end.

(* What is listed for an answer: the name found and the address it came from *)
Definition found_by (ntop : Z -> list Z -> list Z) (c : call) : list printed :=
  if a_type (snd c) =? QTYPE_PTR then
    match a_rdname (snd c) with Some n => [PFound n (if is_zero (a_ip (snd c)) then ntop AF_INET6 (a_ip6 (snd c)) else ntop AF_INET (a_ip (snd c)))] | None => [] end
  else [].

(* A message that does not fit its packet is sent *)
Definition overfull (A : Type) (beh : behaviour A) (a0 : A) (lo : list (env * bool)) : Prop :=
  exists d a e sent d' a' m n, runs beh (fun _ => True) a0 d a /\ In (e, sent) lo /\ out_re beh d a e = Ok (d', a', m, n) /\ n <> 0 /\ e_ovf (encode (o_calls m)) = true.
(* All in the second t *)
Definition within (t : Z) (l : list (env * bool)) : Prop := forall e b, In (e, b) l -> fst (e_now e) = t.
(* Three calls of mdnsd_out follow each other in the same second *)
Definition steady (lo : list (env * bool)) : Prop := exists l1 x y z l2, lo = l1 ++ x :: y :: z :: l2 /\ exists t, within t [x; y; z].
(* How a turn goes: well, unless a datagram is not self-contained (C06), or a
   message does not fit its packet (C66).  Hang: more is sent than lo has sends
   for; that ends within a second. *)
Definition goes_well {B} (A : Type) (beh : behaviour A) (a0 : A) (li : list (env * received)) (lo : list (env * bool)) (r : res B) : Prop :=
  match r with
  | Ok _ => True
  | Hang => ~ steady lo
  | UB (OobRead _) => ~ brings self_contained li
  | UB (OobWrite _) => overfull A beh a0 lo
  | _ => False
  end.

(* A query for the name and type is registered *)
Definition looked_up (d : daemon) (n : list Z) (ty : Z) : Prop := exists q, registered d q /\ is_for q n ty.
