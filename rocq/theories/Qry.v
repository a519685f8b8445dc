(* Model of libmdnsd/mdnsd.c, part 2: queries and the cache.

   Queries live in a heap indexed by numbers.  A cache bucket is a list of
   entries, each with an identity (its address in C).  Times and TTLs are
   integers without wraparound (in C they are 64 bits wide).  Callbacks do not
   call the library; whether the k-th answer callback returns -1 is given by
   [cb k]. *)
From Verif Require Import Base Hash Wire Rec.

(* mdnsd.c:62-68 struct query; callback and argument are one number *)
Record query : Type := mkquery { q_nm : list Z; q_ty : Z; q_next : Z; q_tries : Z; q_cb : nat }.
Definition set_qnext (q : query) (t n : Z) : query := mkquery (q_nm q) (q_ty q) t n (q_cb q).
Definition set_qcb (q : query) (c : nat) : query := mkquery (q_nm q) (q_ty q) (q_next q) (q_tries q) c.

(* mdnsd.c:77-81 struct cached *)
Record cached : Type := mkcached { c_id : nat; c_rr : answer; c_q : option nat }.

(* The query and cache fields of struct mdns_daemon, the number of answer
   callbacks made so far, and their log: callback and answer passed. *)
Record qrys : Type := mkqrys {
  qh : nat -> option query; qfresh : nat;
  qlist : list nat;
  qtab : list (list nat);
  cache : list (list cached); cfresh : nat;
  checkq : Z;
  ncb : nat;
  told : list (nat * answer)
}.
Definition qrys_new : qrys :=
  mkqrys (fun _ => None) 0 [] (repeat [] (Z.to_nat SPRIME)) (repeat [] (Z.to_nat LPRIME)) 0 0 0 [].

Definition set_qh (s : qrys) (h : nat -> option query) : qrys :=
  mkqrys h (qfresh s) (qlist s) (qtab s) (cache s) (cfresh s) (checkq s) (ncb s) (told s).
Definition set_cache (s : qrys) (c : list (list cached)) : qrys :=
  mkqrys (qh s) (qfresh s) (qlist s) (qtab s) c (cfresh s) (checkq s) (ncb s) (told s).
Definition set_checkq (s : qrys) (t : Z) : qrys :=
  mkqrys (qh s) (qfresh s) (qlist s) (qtab s) (cache s) (cfresh s) t (ncb s) (told s).
Definition tell (s : qrys) (c : nat) (a : answer) : qrys :=
  mkqrys (qh s) (qfresh s) (qlist s) (qtab s) (cache s) (cfresh s) (checkq s) (S (ncb s)) (told s ++ [(c, a)]).

Definition qget (s : qrys) (q : nat) : res query :=
  match qh s q with Some x => Ok x | None => UB UseAfterFree end.
Definition qset (s : qrys) (q : nat) (x : query) : qrys :=
  set_qh s (fun j => if Nat.eqb j q then Some x else qh s j).

Definition qbucket (name : list Z) : nat := Z.to_nat (bucket_index name SPRIME).
Definition cbucket (name : list Z) : nat := Z.to_nat (bucket_index name LPRIME).
Definition centries (s : qrys) (i : nat) : list cached := nth i (cache s) [].
Definition set_centries (s : qrys) (i : nat) (l : list cached) : qrys := set_cache s (upd (cache s) i l).

(* mdnsd.c:134-147 _q_next(d, 0, host, type) *)
Fixpoint find_query (s : qrys) (l : list nat) (host : list Z) (type : Z) : res (option nat) :=
  match l with
  | [] => Ok None
  | x :: t =>
      q <- qget s x;;
      if (q_ty q =? type) && bytes_eqb (q_nm q) host then Ok (Some x) else find_query s t host type
  end.
Definition q_find (s : qrys) (host : list Z) (type : Z) : res (option nat) :=
  find_query s (nth (qbucket host) (qtab s) []) host type.

(* mdnsd.c:156-161: the entries _c_next stops at *)
Definition c_match (host : list Z) (type : Z) (c : cached) : bool :=
  ((type =? a_type (c_rr c)) || (type =? QTYPE_ANY)) && bytes_eqb (a_name (c_rr c)) host.

Definition set_cq (c : cached) (q : option nat) : cached := mkcached (c_id c) (c_rr c) q.
Definition set_cttl (c : cached) (t : Z) : cached := mkcached (c_id c) (set_ttl (c_rr c) t) (c_q c).

(* mdnsd.c:375-389 _q_reset *)
Definition reset_try (host : list Z) (type : Z) (l : list cached) : Z :=
  fold_left (fun t c => if c_match host type c then
                          if (t =? 0) || (a_ttl (c_rr c) - 7 <? t) then a_ttl (c_rr c) - 7 else t
                        else t) l 0.
Definition q_reset (s : qrys) (q : nat) : res qrys :=
  x <- qget s q;;
  let t := reset_try (q_nm x) (q_ty x) (centries s (cbucket (q_nm x))) in
  let s := qset s q (set_qnext x t 0) in
  Ok (if negb (t =? 0) && (t <? checkq s) then set_checkq s t else s).

(* mdnsd.c:392-420 _q_done; the two unlinking loops dereference NULL if the
   query is not there *)
Definition mem (q : nat) (l : list nat) : bool := existsb (Nat.eqb q) l.
Definition q_done (s : qrys) (q : nat) : res qrys :=
  x <- qget s q;;
  let ci := cbucket (q_nm x) in
  let s := set_centries s ci (map (fun c => if c_match (q_nm x) (q_ty x) c then set_cq c None else c) (centries s ci)) in
  let i := qbucket (q_nm x) in
  if negb (mem q (qlist s)) || negb (mem q (nth i (qtab s) [])) then UB NullDeref
  else Ok (mkqrys (fun j => if Nat.eqb j q then None else qh s j) (qfresh s)
                  (remove1 q (qlist s)) (upd (qtab s) i (remove1 q (nth i (qtab s) [])))
                  (cache s) (cfresh s) (checkq s) (ncb s) (told s)).

(* mdnsd.c:487-493 _q_answer; if the entry is still linked its TTL changes there *)
Definition q_answer (s : qrys) (now : Z) (cb : nat -> bool) (c : cached) : res qrys :=
  let c' := if a_ttl (c_rr c) <=? now then set_cttl c 0 else c in
  let i := cbucket (a_name (c_rr c)) in
  let s := set_centries s i (map (fun x => if Nat.eqb (c_id x) (c_id c) then set_cttl x (a_ttl (c_rr c')) else x) (centries s i)) in
  match c_q c with
  | None => UB NullDeref
  | Some q =>
      x <- qget s q;;
      let s' := tell s (q_cb x) (c_rr c') in
      if cb (ncb s) then q_done s' q else Ok s'
  end.

Definition find_entry (id : nat) (l : list cached) : option cached := find (fun c => Nat.eqb (c_id c) id) l.
Definition drop_entry (id : nat) (l : list cached) : list cached := filter (fun c => negb (Nat.eqb (c_id c) id)) l.

(* mdnsd.c:502-528 _c_expire on bucket i.  Callbacks neither add nor remove
   entries, so the loop visits the entries present at the start. *)
Fixpoint expire_loop (s : qrys) (now : Z) (cb : nat -> bool) (i : nat) (ids : list nat) : res qrys :=
  match ids with
  | [] => Ok s
  | id :: t =>
      match find_entry id (centries s i) with
      | None => UB UseAfterFree
      | Some c =>
          if a_ttl (c_rr c) <=? now then
            let s := set_centries s i (drop_entry id (centries s i)) in
            s <- match c_q c with Some _ => q_answer s now cb c | None => Ok s end;;
            expire_loop s now cb i t
          else expire_loop s now cb i t
      end
  end.
Definition c_expire (s : qrys) (now : Z) (cb : nat -> bool) (i : nat) : res qrys :=
  expire_loop s now cb i (map c_id (centries s i)).

(* mdnsd.c:531-541 _gc, without d->expireall *)
Fixpoint gc_loop (s : qrys) (now : Z) (cb : nat -> bool) (is : list nat) : res qrys :=
  match is with
  | [] => Ok s
  | i :: t => s <- c_expire s now cb i;; gc_loop s now cb t
  end.
Definition gc (s : qrys) (now : Z) (cb : nat -> bool) : res qrys := gc_loop s now cb (seq 0 (Z.to_nat LPRIME)).

(* Fields of the union [known] of struct resource; a member other than the one
   the parser stored reads as zero. *)
Definition known_name (r : resource) : option (list Z) :=
  match rr_known r with KName n => Some n | KSrv _ _ _ n => Some n | _ => None end.
Definition known_srv (r : resource) : Z * Z * Z :=
  match rr_known r with KSrv p w q _ => (p, w, q) | _ => (0, 0, 0) end.
Definition known_ip (r : resource) : list Z := match rr_known r with KA i => i | _ => zero4 end.
Definition known_ip6 (r : resource) : list Z := match rr_known r with KAAAA i => i | _ => zero16 end.

Definition is_name_type (t : Z) : bool := (t =? QTYPE_PTR) || (t =? QTYPE_NS) || (t =? QTYPE_CNAME).
Definition opt_eqb (a b : option (list Z)) : bool :=
  match a, b with Some x, Some y => bytes_eqb x y | _, _ => false end.
Definition opt_bytes (d : option (list Z)) : list Z := match d with Some d => d | None => [] end.

(* mdnsd.c:198-232 _a_match *)
Definition a_match (r : resource) (a : answer) : bool :=
  if negb (bytes_eqb (rr_name r) (a_name a)) || negb (rr_type r =? a_type a) then false
  else if rr_type r =? QTYPE_SRV then
    let '(p, w, q) := known_srv r in
    opt_eqb (known_name r) (a_rdname a) && (a_port a =? q) && (a_weight a =? w) && (a_prio a =? p)
  else if is_name_type (rr_type r) then opt_eqb (known_name r) (a_rdname a)
  else if rr_type r =? QTYPE_A then bytes_eqb (known_ip r) (a_ip a)
  else if rr_type r =? QTYPE_AAAA then bytes_eqb (known_ip6 r) (a_ip6 a)
  else (rr_rdlength r =? zlen (opt_bytes (a_rdata a))) && bytes_eqb (opt_bytes (rr_rdata r)) (opt_bytes (a_rdata a)).

(* mdnsd.c:555-567: repeated removal of entries equal to r *)
Fixpoint delete_loop (fuel : nat) (s : qrys) (now : Z) (cb : nat -> bool) (i : nat) (r : resource) : res qrys :=
  match fuel with
  | O => Hang
  | S fuel =>
      match find (fun c => c_match (rr_name r) (rr_type r) c && a_match r (c_rr c)) (centries s i) with
      | None => Ok s
      | Some c =>
          let s := set_centries s i (map (fun x => if Nat.eqb (c_id x) (c_id c) then set_cttl x 0 else x) (centries s i)) in
          s <- c_expire s now cb i;;
          delete_loop fuel s now cb i r
      end
  end.

(* mdnsd.c:590-646: the new entry, None when the name to copy is NULL *)
Definition cache_answer (r : resource) (ttl : Z) (from : addr) : option answer :=
  let base := mkanswer (rr_name r) (rr_type r) ttl (if rr_rdlength r =? 0 then None else rr_rdata r) zero4 zero16 None 0 0 0 in
  if rr_type r =? QTYPE_A then Some (put_ip (known_ip r) base)
  else if rr_type r =? QTYPE_AAAA then Some (put_ip6 (known_ip6 r) base)
  else if is_name_type (rr_type r) then
    match known_name r with
    | None => None
    | Some n => Some ((if family from =? AF_INET6 then put_ip6 (ip from) else put_ip (ip from)) (put_host n base))
    end
  else if rr_type r =? QTYPE_SRV then
    match known_name r with
    | None => None
    | Some n => let '(p, w, q) := known_srv r in Some (put_srv p w q (put_host n base))
    end
  else Some base.

(* mdnsd.c:543-656 _cache.  The return value, 1 if the record has a length but
   no data, only leads to a log message.  r->rdlength bytes are copied from
   r->rdata. *)
Definition cache_rr (s : qrys) (now : Z) (cb : nat -> bool) (class : Z) (r : resource) (from : addr) : res qrys :=
  let i := cbucket (rr_name r) in
  s <- (if rr_class r =? 32768 + class then
          c_expire (set_centries s i (map (fun c => if c_match (rr_name r) (rr_type r) c then set_cttl c 0 else c) (centries s i))) now cb i
        else Ok s);;
  if rr_ttl r =? 0 then delete_loop (S (length (centries s i))) s now cb i r
  else
    let ttl := now + rr_ttl r / 2 + 8 in
    match find (fun c => c_match (rr_name r) (rr_type r) c && a_match r (c_rr c)) (centries s i) with
    | Some c =>
        Ok (set_centries s i (map (fun x => if Nat.eqb (c_id x) (c_id c) then set_cttl x ttl else x) (centries s i)))
    | None =>
        if negb (rr_rdlength r =? 0) && match rr_rdata r with None => true | Some _ => false end then Ok s
        else
          match cache_answer r ttl from with
          | None => UB NullDeref
          | Some a =>
              q <- q_find s (rr_name r) (rr_type r);;
              let c := mkcached (cfresh s) a q in
              let s := mkqrys (qh s) (qfresh s) (qlist s) (qtab s) (upd (cache s) i (c :: centries s i)) (S (cfresh s)) (checkq s) (ncb s) (told s) in
              match q with
              | Some _ => q_answer s now cb c
              | None => Ok s
              end
          end
    end.

(* mdnsd.c:1535-1575 mdnsd_query; answer = None is a NULL callback *)
Definition mdnsd_query (s : qrys) (now : Z) (host : list Z) (type : Z) (answer : option nat) : res qrys :=
  f <- q_find s host type;;
  match f, answer with
  | None, None => Ok s
  | Some q, None => q_done s q
  | Some q, Some cb => x <- qget s q;; Ok (qset s q (set_qcb x cb))
  | None, Some cb =>
      let q := qfresh s in
      let i := qbucket host in
      let ci := cbucket host in
      let s := mkqrys (fun j => if Nat.eqb j q then Some (mkquery host type 0 0 cb) else qh s j) (S q)
                      (q :: qlist s) (upd (qtab s) i (q :: nth i (qtab s) []))
                      (upd (cache s) ci (map (fun c => if c_match host type c then set_cq c (Some q) else c) (centries s ci)))
                      (cfresh s) (checkq s) (ncb s) (told s) in
      s <- q_reset s q;;
      x <- qget s q;;
      Ok (set_checkq (qset s q (set_qnext x now (q_tries x))) now)
  end.

(* mdnsd.c:149-162 _c_next and 1577-1580 mdnsd_list: the next entry after
   [last], or the first.  The name of an entry, which tells its bucket, never
   changes. *)
Fixpoint tail_entries (id : nat) (l : list cached) : list cached :=
  match l with
  | [] => []
  | c :: t => if Nat.eqb (c_id c) id then t else tail_entries id t
  end.
Definition mdnsd_list (s : qrys) (host : list Z) (type : Z) (last : option cached) : res (option cached) :=
  match last with
  | None => Ok (find (c_match host type) (centries s (cbucket host)))
  | Some c =>
      let l := centries s (cbucket (a_name (c_rr c))) in
      match find_entry (c_id c) l with
      | None => UB UseAfterFree
      | Some _ => Ok (find (c_match host type) (tail_entries (c_id c) l))
      end
  end.

(* mdnsd.c:1643-1646 mdnsd_has_query *)
Definition mdnsd_has_query (s : qrys) (host : list Z) : bool :=
  match nth (qbucket host) (qtab s) [] with [] => false | _ => true end.
