(* What C122 is stated with: lines that describe answers. *)
From Coq Require Import String Ascii.
From Verif Require Import Base SpecLib Wire Rec MqText.

(* A number as people write it *)
Definition numeral (n : Z) (s : list Z) : Prop :=
  exists ds, is_dec ds /\ ((s = ds /\ dec_value ds = n) \/ (s = 45 :: ds /\ dec_value ds = - n)).
(* What types are called; the numbers are those of the DNS *)
Inductive label : Z -> list Z -> Prop :=
| label_a : label 1 (lit "A")
| label_aaaa : label 28 (lit "AAAA")
| label_ptr : label 12 (lit "PTR")
| label_srv : label 33 (lit "SRV")
| label_ns : label 2 (lit "NS (2)")
| label_cname : label 5 (lit "CNAME (5)")
| label_txt : label 16 (lit "TXT (16)")
| label_any : label 255 (lit "ANY (255)")
| label_other : forall t n, ~ In t [1; 28; 12; 33; 2; 5; 16; 255] -> numeral t n -> label t (lit "UNKNOWN (" ++ n ++ lit ")").
(* What there is of its data *)
Inductive data (ntop : Z -> list Z -> list Z) (a : answer) : list Z -> Prop :=
| data_a : a_type a = 1 -> data ntop a (lit "to ip " ++ ntop AF_INET (a_ip a))
| data_aaaa : a_type a = 28 -> data ntop a (lit "to ip " ++ ntop AF_INET6 (a_ip6 a))
| data_ptr : forall n, a_type a = 12 -> a_rdname a = Some n -> data ntop a (lit "to " ++ n)
| data_srv : forall n p, a_type a = 33 -> a_rdname a = Some n -> numeral (a_port a) p -> data ntop a (lit "to " ++ n ++ lit ":" ++ p)
| data_other : forall n, ~ In (a_type a) [1; 28; 12; 33] -> numeral (zlen (match a_rdata a with Some l => l | None => [] end)) n -> data ntop a (lit "with " ++ n ++ lit " data").
Definition describes (ntop : Z -> list Z -> list Z) (a : answer) (secs : Z) (line : list Z) : Prop :=
  exists l n s, label (a_type a) l /\ numeral secs n /\ data ntop a s /\ line = l ++ lit " " ++ a_name a ++ lit " for " ++ n ++ lit " seconds " ++ s ++ [10].
(* What a line tells *)
Definition same_shown (ntop : Z -> list Z -> list Z) (a b : answer) : Prop :=
  a_type a = a_type b /\ a_name a = a_name b /\
  (a_type a = 1 -> ntop AF_INET (a_ip a) = ntop AF_INET (a_ip b)) /\ (a_type a = 28 -> ntop AF_INET6 (a_ip6 a) = ntop AF_INET6 (a_ip6 b)) /\
  (a_type a = 12 \/ a_type a = 33 -> a_rdname a = a_rdname b) /\ (a_type a = 33 -> a_port a = a_port b).
Definition no_space (s : list Z) : Prop := ~ In 32 s.
