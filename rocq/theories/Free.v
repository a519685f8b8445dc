(* Model of mdnsd_free (libmdnsd/mdnsd.c:1047-1102), _free_cached (421-439) and
   _free_record (441-459): which blocks of memory are passed to free, in order.
   A freed record or query is removed from its heap, so that a second look at it
   is a use after free.  freeifaddrs counts as one block; an empty
   interface list is a NULL pointer. *)
From Verif Require Import Base Hash Wire Rec Qry Out In Api.

(* The blocks of an entry: its strings and the structure itself *)
Inductive part : Type := PName | PRdata | PRdname | PStruct.
(* Cache entries are told apart by bucket and number, replies by position. *)
Inductive block : Type :=
| BCached : nat -> nat -> part -> block
| BRecord : nat -> part -> block
| BQuery : nat -> part -> block
| BReply : nat -> block
| BIfaddrs : block
| BDaemon : block.

(* mdnsd.c:426-438, 446-458: the name is always set *)
Definition answer_parts (a : answer) : list part :=
  [PName] ++ (match a_rdata a with Some _ => [PRdata] | None => [] end) ++ (match a_rdname a with Some _ => [PRdname] | None => [] end) ++ [PStruct].

(* mdnsd.c:1054-1064 *)
Definition free_chain (i : nat) (l : list cached) : list block := flat_map (fun c => map (BCached i (c_id c)) (answer_parts (c_rr c))) l.
Fixpoint free_cache (i : nat) (l : list (list cached)) : list block :=
  match l with
  | [] => []
  | c :: t => free_chain i c ++ free_cache (S i) t
  end.

(* mdnsd.c:1070-1076 *)
Fixpoint free_records (h : heap) (l : list nat) : res (heap * list block) :=
  match l with
  | [] => Ok (h, [])
  | x :: t =>
      X <- hget h x;;
      p <- free_records (hdel h x) t;;
      Ok (fst p, map (BRecord x) (answer_parts (rr X)) ++ snd p)
  end.
(* mdnsd.c:1078-1086 *)
Fixpoint free_queries (s : qrys) (l : list nat) : res (qrys * list block) :=
  match l with
  | [] => Ok (s, [])
  | q :: t =>
      _ <- qget s q;;
      p <- free_queries (set_qh s (fun y => if Nat.eqb y q then None else qh s y)) t;;
      Ok (fst p, [BQuery q PName; BQuery q PStruct] ++ snd p)
  end.
(* mdnsd.c:1066-1087: bucket by bucket, records and queries *)
Fixpoint free_tables (h : heap) (s : qrys) (rs qs : list (list nat)) : res (list block) :=
  match rs, qs with
  | r :: rs, q :: qs =>
      a <- free_records h r;;
      b <- free_queries s q;;
      c <- free_tables (fst a) (fst b) rs qs;;
      Ok (snd a ++ snd b ++ c)
  | _, _ => Ok []
  end.

(* mdnsd.c:1047-1102 mdnsd_free *)
Definition mdnsd_free (d : daemon) : res (list block) :=
  t <- free_tables (hp (R d)) (Q d) (pub (R d)) (qtab (Q d));;
  Ok (free_cache 0 (cache (Q d)) ++ t ++ map BReply (seq 0 (length (uans (R d)))) ++ (match ifs d with Some (_ :: _) => [BIfaddrs] | _ => [] end) ++ [BDaemon]).
