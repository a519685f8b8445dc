(* Descriptors of the main program: vocabulary of C96 to C99. *)
From Verif Require Import Base Iface SpecIface Main.

(* The descriptors open after these requests *)
Definition note (l : list Z) (e : request * Z) : list Z :=
  match e with
  | (ASocket _, r) => if 0 <=? r then r :: l else l
  | (AClose fd, _) => filter (fun x => negb (x =? fd)) l
  | _ => l
  end.
Definition opened (tr : trace) : list Z := fold_left note tr [].
(* The kernel gives no descriptor that is open already. *)
Definition honest (k : kernel) : Prop := forall tr f, 0 <= k tr (ASocket f) -> ~ In (k tr (ASocket f)) (opened tr).
(* The descriptors a request is about *)
Definition uses (c : request) : list Z :=
  match c with ASocket _ => [] | AOption fd _ | ABind fd _ | AClose fd | AIo fd | ANetlink fd => [fd] | ASelect l => l end.
(* Every request is about descriptors that are open at that time. *)
Definition clean (tr : trace) : Prop := forall pre c r post, tr = pre ++ (c, r) :: post -> forall fd, In fd (uses c) -> In fd (opened pre).

Definition group (family : Z) : list Z := if family =? 10 then [255; 2; 0; 0; 0; 0; 0; 0; 0; 0; 0; 0; 0; 0; 0; 251] else [224; 0; 0; 251].
(* Since it was created as a socket of the family, fd was made to send and listen
   on the interface of this name only, with this TTL, with TTL 255 for unicast, to
   join the group there, to be heard by and to share the port with other programs
   of this host, and it was bound to port 5353. *)
Definition prepared (tr : trace) (fd family : Z) (name : list Z) (ttl : Z) : Prop :=
  exists p1 p2, tr = p1 ++ (ASocket family, fd) :: p2 /\ (forall r, ~ In (AClose fd, r) p2) /\
    (forall o, In o [McTtl ttl; McIf name; BindDev name; Join (group family) name; ReuseAddr; ReusePort; McLoop; UniTtl 255] -> exists r, In (AOption fd o, r) p2) /\ In (ABind fd 5353, 0) p2 /\
    (family = 10 -> exists r, In (AOption fd V6Only, r) p2).

(* The last requests are those of a socket of the family that could not be had. *)
Definition refused (tr : trace) (family : Z) : Prop :=
  exists pre fd post, tr = pre ++ (ASocket family, fd) :: post /\ (fd < 0 /\ post = [] \/ exists opts r r', post = opts ++ [(ABind fd 5353, r); (AClose fd, r')] /\ r <> 0 /\ forall c x, In (c, x) opts -> exists o, c = AOption fd o).

(* getifaddrs fails, or gives interfaces with names of up to 15 characters and
   addresses of the right size, none of which is 0.0.0.0 or :: *)
Definition real_scan (es : option (list entry)) : Prop := forall x, es = Some x -> short_names x /\ proper x /\ no_any x.
Definition real_turn (t : turn) : Prop := real_scan (t_es1 t) /\ real_scan (t_es2 t) /\ real_scan (t_es3 t).
(* No signal arrives, netlink has nothing to tell, and it is not yet time to poll. *)
Definition plain_turn (t : turn) : Prop := t_eintr t = false /\ t_reload t = false /\ t_nlready t = false /\ t_poll t = false.
(* The main loop has done these turns; nl is the netlink socket, l the interfaces. *)
Definition looping (k : kernel) (only : option (list Z)) (ttl : Z) (es0 : option (list entry)) (ts : list turn) (nl : Z) (tr : trace) (l : list iface) : Prop :=
  exists tr0 l0 tr1, sys_init k [] only (ttl mod 256) es0 [] = Go tr0 l0 /\ netlink_init k tr0 = (tr1, nl) /\ main_loop k tr1 only (ttl mod 256) nl ts l0 = Go tr l.
