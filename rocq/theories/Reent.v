(* Model of libmdnsd/mdnsd.c with answer callbacks that call the library: the
   functions that make callbacks, for callbacks that register and remove
   queries (as those of src/mquery.c do).  Everything else is as in Qry.v, Out.v
   and In.v, where callbacks make no calls; the theorem that both agree then is
   in PropReent.v. *)
From Verif Require Import Base Hash Wire Rec Qry Out In.

(* A call of mdnsd_query: name, type and callback (None: NULL, remove) *)
Definition qcall : Type := (list Z * Z * option nat)%type.

(* The callbacks of a program with state A: given the callback (with its
   argument) and the answer, what its state becomes, which calls it makes, in
   order, and whether it returns -1. *)
Definition behaviour (A : Type) : Type := A -> nat -> answer -> res (A * list qcall * bool).

(* mdnsd.c:1535-1575, call after call *)
Fixpoint queries (s : qrys) (now : Z) (l : list qcall) : res qrys :=
  match l with
  | [] => Ok s
  | (host, type, answer) :: l => s <- mdnsd_query s now host type answer;; queries s now l
  end.

(* mdnsd.c:487-493 _q_answer.  c->q is read again after the callback; an entry
   that is no longer in the cache keeps its pointer. *)
Definition q_answer_re {A} (beh : behaviour A) (s : qrys) (a : A) (now : Z) (c : cached) : res (qrys * A) :=
  let c' := if a_ttl (c_rr c) <=? now then set_cttl c 0 else c in
  let i := cbucket (a_name (c_rr c)) in
  let s := set_centries s i (map (fun x => if Nat.eqb (c_id x) (c_id c) then set_cttl x (a_ttl (c_rr c')) else x) (centries s i)) in
  match c_q c with
  | None => UB NullDeref
  | Some q =>
      x <- qget s q;;
      '(a, l, rm) <- beh a (q_cb x) (c_rr c');;
      s <- queries (tell s (q_cb x) (c_rr c')) now l;;
      if rm : bool then
        match match find_entry (c_id c) (centries s i) with Some y => c_q y | None => c_q c end with
        | None => UB NullDeref
        | Some q => s <- q_done s q;; Ok (s, a)
        end
      else Ok (s, a)
  end.

(* mdnsd.c:502-528 _c_expire; queries come and go, entries do not *)
Fixpoint expire_re {A} (beh : behaviour A) (s : qrys) (a : A) (now : Z) (i : nat) (ids : list nat) : res (qrys * A) :=
  match ids with
  | [] => Ok (s, a)
  | id :: t =>
      match find_entry id (centries s i) with
      | None => UB UseAfterFree
      | Some c =>
          if a_ttl (c_rr c) <=? now then
            let s := set_centries s i (drop_entry id (centries s i)) in
            '(s, a) <- match c_q c with Some _ => q_answer_re beh s a now c | None => Ok (s, a) end;;
            expire_re beh s a now i t
          else expire_re beh s a now i t
      end
  end.
Definition c_expire_re {A} (beh : behaviour A) (s : qrys) (a : A) (now : Z) (i : nat) : res (qrys * A) :=
  expire_re beh s a now i (map c_id (centries s i)).

(* mdnsd.c:531-541 _gc *)
Fixpoint gc_re {A} (beh : behaviour A) (s : qrys) (a : A) (now : Z) (is : list nat) : res (qrys * A) :=
  match is with
  | [] => Ok (s, a)
  | i :: t => '(s, a) <- c_expire_re beh s a now i;; gc_re beh s a now t
  end.

(* mdnsd.c:555-567 *)
Fixpoint delete_re {A} (beh : behaviour A) (fuel : nat) (s : qrys) (a : A) (now : Z) (i : nat) (r : resource) : res (qrys * A) :=
  match fuel with
  | O => Hang
  | S fuel =>
      match find (fun c => c_match (rr_name r) (rr_type r) c && a_match r (c_rr c)) (centries s i) with
      | None => Ok (s, a)
      | Some c =>
          let s := set_centries s i (map (fun x => if Nat.eqb (c_id x) (c_id c) then set_cttl x 0 else x) (centries s i)) in
          '(s, a) <- c_expire_re beh s a now i;;
          delete_re beh fuel s a now i r
      end
  end.

(* mdnsd.c:543-656 _cache *)
Definition cache_re {A} (beh : behaviour A) (s : qrys) (a : A) (now class : Z) (r : resource) (from : addr) : res (qrys * A) :=
  let i := cbucket (rr_name r) in
  '(s, a) <- (if rr_class r =? 32768 + class then
          c_expire_re beh (set_centries s i (map (fun c => if c_match (rr_name r) (rr_type r) c then set_cttl c 0 else c) (centries s i))) a now i
        else Ok (s, a));;
  if rr_ttl r =? 0 then delete_re beh (S (length (centries s i))) s a now i r
  else
    let ttl := now + rr_ttl r / 2 + 8 in
    match find (fun c => c_match (rr_name r) (rr_type r) c && a_match r (c_rr c)) (centries s i) with
    | Some c =>
        Ok (set_centries s i (map (fun x => if Nat.eqb (c_id x) (c_id c) then set_cttl x ttl else x) (centries s i)), a)
    | None =>
        if negb (rr_rdlength r =? 0) && match rr_rdata r with None => true | Some _ => false end then Ok (s, a)
        else
          match cache_answer r ttl from with
          | None => UB NullDeref
          | Some w =>
              q <- q_find s (rr_name r) (rr_type r);;
              let c := mkcached (cfresh s) w q in
              let s := mkqrys (qh s) (qfresh s) (qlist s) (qtab s) (upd (cache s) i (c :: centries s i)) (S (cfresh s)) (checkq s) (ncb s) (told s) in
              match q with
              | Some _ => q_answer_re beh s a now c
              | None => Ok (s, a)
              end
          end
    end.

(* mdnsd.c:1213-1233: a received answer may contradict a record of ours *)
Definition contest (d : daemon) (e : env) (from : addr) (did : bool) (a : resource) : res (daemon * bool * bool) :=
  r <- r_next (R d) None (rr_name a) (rr_type a);;
  match r with
  | None => Ok (d, did, false)
  | Some r =>
      x <- hget (hp (R d)) r;;
      if negb (unique x =? 0) && modified x && a_match a (rr x) then
        let '(d, l) := recheck d e from did in
        if l : bool then Ok (d, true, true)
        else s <- r_conflict (R d) (now d) r;; Ok (with_R d s, true, false)
      else Ok (d, did, false)
  end.

(* mdnsd.c:1212-1242 *)
Fixpoint responses_re {A} (beh : behaviour A) (d : daemon) (a : A) (e : env) (from : addr) (did : bool) (an : list resource) : res (daemon * A) :=
  match an with
  | [] => Ok (d, a)
  | r :: an =>
      '(d, did, skip) <- contest d e from did r;;
      if skip : bool then responses_re beh d a e from did an
      else
        let d := if has_recv d then add_received d r else d in
        '(q, a) <- cache_re beh (Q d) a (fst (now d)) (class d) r from;;
        responses_re beh (with_Q d q) a e from did an
  end.

(* mdnsd.c:1111-1245 mdnsd_in *)
Definition in_re {A} (beh : behaviour A) (d : daemon) (a : A) (e : env) (m : message) (from : addr) : res (daemon * A * Z) :=
  if is_shutdown d then Ok (d, a, 1)
  else
    let d := with_now d (e_now e) in
    let '(d, l) := is_local d e from in
    if l : bool then Ok (d, a, 0)
    else
      '(d, a) <- (if h_qr (m_header m) =? 0 then d <- questions d e from false (m_id m) (m_qd m) (m_an m);; Ok (d, a)
            else responses_re beh d a e from false (m_an m));;
      Ok (d, a, 0).

(* mdnsd.c:1418-1444 *)
Fixpoint query_loop_re {A} (beh : behaviour A) (fuel : nat) (s : qrys) (a : A) (t frm cls : Z) (q : option nat) (m : list mcall) (best ret : Z)
  : res (qrys * A * list mcall * Z * Z) :=
  match fuel with
  | O => Hang
  | S fuel =>
      match q with
      | None => Ok (s, a, m, best, ret)
      | Some i =>
          x <- qget s i;;
          if (q_next x =? 0) || (t <? q_next x) then
            n <- q_link s i;;
            query_loop_re beh fuel s a t frm cls n m best ret
          else if q_tries x =? 3 then
            '(s, a) <- c_expire_re beh s a t (cbucket (q_nm x));;
            s <- q_reset s i;;
            n <- q_link s i;;
            query_loop_re beh fuel s a t frm cls n m best ret
          else
            let next := t + (q_tries x + 1) in
            let s := qset s i (set_qnext x next (q_tries x + 1)) in
            let best := if (best =? 0) || (next <? best) then next else best in
            let m := known_answers frm cls t (q_nm x) (q_ty x) (centries s (cbucket (q_nm x))) m in
            n <- q_link s i;;
            query_loop_re beh fuel s a t frm cls n m best (ret + 1)
      end
  end.

(* mdnsd.c:1404-1446; a query registered meanwhile does not count for
   d->checkqlist *)
Definition out_query_re {A} (beh : behaviour A) (s : qrys) (a : A) (t frm cls : Z) (m : list mcall) : res (qrys * A * list mcall * Z) :=
  if negb (checkq s =? 0) && (checkq s <=? t) then
    '(m, best) <- query_ask s t cls (qlist s) m 0;;
    '(s, a, m, best, ret) <- query_loop_re beh (S (qfresh s)) s a t frm cls (hd_error (qlist s)) m best 0;;
    Ok (set_checkq s best, a, m, ret)
  else Ok (s, a, m, 0).

(* mdnsd.c:1247-1402: what is sent before queries; the message so far, and
   what to return if there is something *)
Definition out_first (d : daemon) (e : env) : res (daemon * list mcall * option (omsg * Z)) :=
  let t := e_now e in
  let d := with_now d t in
  let to := mcast (d_family d) in
  let frm := frame d in
  let cls := class d in
  match uans (R d) with
  | u :: us =>
      '(s, m) <- out_unicast (set_uans (R d) us) t frm cls u;;
      Ok (with_R d s, m, Some (mkomsg (u_to u) (u_id u) true m, 1))
  | [] =>
      '(s, m, seen, ret) <- r_out (qfuel (R d)) (R d) t frm cls (disco d) Now [] [] 0;;
      '(s, m, seen, ret) <- out_publish s t frm cls m seen ret;;
      if is_shutdown d then Ok (with_R d s, m, Some (mkomsg to 0 true m, ret))
      else
        '(s, m, seen, ret) <-
          match a_pause s with
          | Some _ => if tvdiff t (t_pause s) <=? 0 then r_out (qfuel s) s t frm cls (disco d) Pause m seen ret else Ok (s, m, seen, ret)
          | None => Ok (s, m, seen, ret)
          end;;
        '(m, seen) <- additionals s frm cls m seen seen;;
        if negb (ret =? 0) then Ok (with_R d s, m, Some (mkomsg to 0 true m, ret))
        else
          '(s, m, ret) <- out_probe s t cls m;;
          if negb (ret =? 0) then Ok (with_R d s, m, Some (mkomsg to 0 false m, ret)) else Ok (with_R d s, m, None)
  end.

(* mdnsd.c:1247-1452 mdnsd_out *)
Definition out_re {A} (beh : behaviour A) (d : daemon) (a : A) (e : env) : res (daemon * A * omsg * Z) :=
  '(d, m, sent) <- out_first d e;;
  match sent with
  | Some (m, ret) => Ok (d, a, m, ret)
  | None =>
      let t := fst (e_now e) in
      '(q, a, m, ret) <- out_query_re beh (Q d) a t (frame d) (class d) m;;
      if expireall d <? t then
        '(q, a) <- gc_re beh q a t (seq 0 (Z.to_nat LPRIME));;
        Ok (with_expireall (with_Q d q) (t + GC), a, mkomsg (mcast (d_family d)) 0 false m, ret)
      else Ok (with_Q d q, a, mkomsg (mcast (d_family d)) 0 false m, ret)
  end.
