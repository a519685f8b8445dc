(* The callback of mdnsd_register_receive_callback: vocabulary of C119. *)
From Verif Require Import Base Hash Wire Rec Qry Out In Api SpecDaemon.

(* One is registered: the last such call gave one, not NULL. *)
Definition listening (l : list event) : bool := fold_left (fun b ev => match ev_call ev with ORegister c => c | _ => b end) l false.
(* mdnsd_shutdown was called *)
Definition shut (l : list event) : Prop := exists ev, In ev l /\ ev_call ev = OShutdown.
(* The message m says a: it answers with it, or asks and knows it already. *)
Definition brings (m : message) (a : resource) : Prop :=
  In a (m_an m) /\ (h_qr (m_header m) = 0 -> exists q, In q (m_qd m) /\ q_name q = rr_name a /\ q_type q = rr_type a).
(* Anywhere in the message *)
Definition contains (m : message) (a : resource) : Prop := In a (m_an m) \/ In a (m_ns m) \/ In a (m_ar m).
