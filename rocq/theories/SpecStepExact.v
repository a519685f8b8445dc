(* What C68_exact_partial is stated with. *)
From Verif Require Import Base Wire Rec Qry Out In Api SpecDaemon Step.

(* The calls of a history, with the environments they ran in *)
Definition calls (h : list event) : list (env * op) := map (fun ev => (ev_env ev, ev_call ev)) h.
(* The messages taken from the socket, each from the bytes of its own datagram: those
   before an error or an empty datagram that can be parsed *)
Fixpoint taken (l : list (env * received)) : list (env * op) :=
  match l with
  | (e, Datagram b from) :: l =>
      if zlen b =? 0 then []
      else match message_parse (mkbuffer (zlen b) (zget b)) MSG_BLOCK with Ok (m, _, _) => (e, OIn m from) :: taken l | _ => taken l end
  | _ => []
  end.
(* The socket gives an error, and no empty datagram before it. *)
Fixpoint broken (l : list (env * received)) : bool :=
  match l with
  | [] => false
  | (_, Failure) :: _ => true
  | (_, Datagram b _) :: l => if zlen b =? 0 then false else broken l
  end.
(* Everything was sent until mdnsd_out had no more, or the last packet could not be. *)
Definition sends (l : list (env * bool)) (h : list event) (ps : list (addr * list Z)) (rc : Z) : Prop :=
  (rc = 0 /\ exists a last m, h = a ++ [last] /\ ev_result last = RMsg m 0 /\ length a = length ps /\ Forall (fun x => snd x = true) (firstn (length ps) l)) \/
  (rc = 2 /\ length h = length ps /\ exists a e, firstn (length ps) l = a ++ [(e, false)] /\ Forall (fun x => snd x = true) a).
