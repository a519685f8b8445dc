(* How much the cache holds. *)
From Verif Require Import Base Hash Wire Rec Qry Out In Api SpecDaemon SpecCache.

Definition cache_size (d : daemon) : nat := length (concat (cache (Q d))).
(* The answers of the responses that were received *)
Definition answers_in (ev : event) : list resource :=
  match ev_call ev with OIn m _ => if h_qr (m_header m) =? 0 then [] else m_an m | _ => [] end.
Definition answers_received (l : list event) : nat := length (flat_map answers_in l).
(* Nothing happens but that packets of one host come in, all at the same time *)
Definition only_from (t : tv) (from : addr) (l : list event) : Prop := forall ev, In ev l -> e_now (ev_env ev) = t /\ exists m, ev_call ev = OIn m from.
(* Those of them whose time, half the TTL and eight seconds, is not over *)
Definition fresh_in (t : Z) (ev : event) : list resource := filter (fun a => t <? fst (e_now (ev_env ev)) + rr_ttl a / 2 + 8) (answers_in ev).
Definition fresh_received (t : Z) (l : list event) : nat := length (flat_map (fresh_in t) l).
