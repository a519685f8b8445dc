(* What C123 is stated with: the listing of mquery. *)
From Verif Require Import Base Wire Rec Mquery SpecMquery MqText.

(* All that was printed *)
Definition output (l : list printed) : list Z := flat_map (fun p => text_of p 0) l.
(* What was found, in order: the name pointed to, and who told, as text: the IPv4
   address, or the IPv6 address if there is none *)
Definition finds (ntop : Z -> list Z -> list Z) (T : list call) : list (list Z * list Z) :=
  flat_map (fun c => if a_type (snd c) =? 12 then
                       match a_rdname (snd c) with Some n => [(n, if is_zero (a_ip (snd c)) then ntop AF_INET6 (a_ip6 (snd c)) else ntop AF_INET (a_ip (snd c)))] | None => [] end
                     else []) T.
(* A line: + name (address) *)
Definition found_line (x : list Z * list Z) : list Z := [43; 32] ++ fst x ++ [32; 40] ++ snd x ++ [41; 10].
(* Texts without parentheses and line ends, as inet_ntop makes them *)
Definition plain_text (ntop : Z -> list Z -> list Z) : Prop := forall f a, ~ In 40 (ntop f a) /\ ~ In 10 (ntop f a).
(* No name has a line end *)
Definition one_line (l : list (list Z * list Z)) : Prop := forall x, In x l -> ~ In 10 (fst x).
