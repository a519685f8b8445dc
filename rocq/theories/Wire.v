(* Model of libmdnsd/1035.c: network integers, the packet parser and the
   packet encoder.  No proofs here. *)
From Verif Require Import Base.

(* libmdnsd/1035.h:49-50 *)
Definition MAX_PACKET_LEN : Z := 65535.
Definition MAX_NUM_LABELS : Z := 512.

(* libmdnsd/1035.h:57-64 *)
Definition QTYPE_A : Z := 1.
Definition QTYPE_NS : Z := 2.
Definition QTYPE_CNAME : Z := 5.
Definition QTYPE_PTR : Z := 12.
Definition QTYPE_TXT : Z := 16.
Definition QTYPE_AAAA : Z := 28.
Definition QTYPE_SRV : Z := 33.
Definition QTYPE_ANY : Z := 255.

(* sizeof(struct question), sizeof(struct resource) on LP64,
   libmdnsd/1035.h:52-55 and 66-97. *)
Definition SIZEOF_QUESTION : Z := 16.
Definition SIZEOF_RESOURCE : Z := 64.
(* <netinet/in.h> *)
Definition INET_ADDRSTRLEN : Z := 16.
Definition INET6_ADDRSTRLEN : Z := 46.

(* ------------------------------------------------------------------ *)
(** * Network integers *)

(* libmdnsd/1035.c:64-70 short2net, as the two bytes stored. *)
Definition short2net (i : Z) : list Z :=
  let i := i mod 65536 in
  [Z.shiftr i 8 mod 256; i mod 256].

(* libmdnsd/1035.c:72-82 long2net, as the four bytes stored. *)
Definition long2net (l : Z) : list Z :=
  let l := l mod 2 ^ 64 in
  [Z.shiftr l 24 mod 256; Z.shiftr l 16 mod 256; Z.shiftr l 8 mod 256; l mod 256].

(* ------------------------------------------------------------------ *)
(** * Reading a packet *)

(* The memory handed to message_parse: its size and contents. *)
Record buffer : Type := mkbuffer { b_size : Z; b_at : Z -> Z }.

(* One byte read, undefined outside the buffer. *)
Definition rd (b : buffer) (o : Z) : res Z :=
  if (0 <=? o) && (o <? b_size b) then Ok (b_at b o) else UB (OobRead o).

(* memcpy of n bytes from the buffer. *)
Definition rdn (b : buffer) (o n : Z) : res (list Z) :=
  if n <=? 0 then Ok []
  else if (0 <=? o) && (o + n <=? b_size b) then Ok (map (b_at b) (zseq o (Z.to_nat n)))
  else UB (OobRead (o + n - 1)).

(* A store of n bytes at offset o of the message block, whose size is psz. *)
Definition wr (psz o n : Z) : res unit :=
  if n <=? 0 then Ok tt
  else if (0 <=? o) && (o + n <=? psz) then Ok tt
  else UB (OobWrite (o + n - 1)).

(* libmdnsd/1035.c:36-46 net2short; returns value and advanced position. *)
Definition net2short (b : buffer) (p : Z) : res (Z * Z) :=
  h <- rd b p ;;
  l <- rd b (p + 1) ;;
  Ok (Z.lor (Z.shiftl h 8 mod 65536) l, p + 2).

(* libmdnsd/1035.c:48-62 net2long; long is 64 bits so no shift overflows. *)
Definition net2long (b : buffer) (p : Z) : res (Z * Z) :=
  b0 <- rd b p ;;
  b1 <- rd b (p + 1) ;;
  b2 <- rd b (p + 2) ;;
  b3 <- rd b (p + 3) ;;
  Ok (Z.lor (Z.shiftl (Z.lor (Z.shiftl (Z.lor (Z.shiftl b0 8) b1) 8) b2) 8) b3, p + 4).

(* libmdnsd/1035.c:84-95 _ldecomp on the two bytes of a pointer. *)
Definition ldecomp_val (c0 c1 : Z) : Z :=
  let i := Z.lxor 192 (schar c0) mod 65536 in
  let i := Z.shiftl i 8 mod 65536 in
  let i := Z.lor i c1 in
  if 4096 <=? i then 4095 else i.

Definition ldecomp (b : buffer) (p : Z) : res Z :=
  c0 <- rd b p ;;
  c1 <- rd b (p + 1) ;;
  Ok (ldecomp_val c0 c1).

(* State of a message being parsed: bytes of the block in use (_len), cached
   names (_labels, as the strings they point at), and a log of the regions
   (offset, size) of the block handed out so far.  The log is not in the C
   code; names and rdata are represented by value, which is justified by the
   regions being disjoint (property C07). *)
Record pst : Type := mkpst {
  ps_len : Z;
  ps_names : list (list Z);
  ps_log : list (Z * Z)
}.

(* libmdnsd/1035.c:113-121: the while loop skipping compression pointers. *)
Fixpoint skip_ptrs (fuel : nat) (b : buffer) (len label prev : Z) : res Z :=
  match fuel with
  | O => Hang
  | S f =>
      c <- rd b label ;;
      if Z.land c 192 =? 0 then Ok label
      else
        off <- ldecomp b label ;;
        if (off <=? prev) || (len <? off) then Rej
        else
          c' <- rd b off ;;
          if c' =? 0 then Ok off else skip_ptrs f b len off off
  end.

(* Fuel sufficient for both loops, see property C04. *)
Definition PTR_FUEL : nat := Z.to_nat 4100.
Definition LABEL_FUEL : nat := 260.

(* libmdnsd/1035.c:111-132: the loop storing labels.  [acc] is what has been
   stored at *namep so far, so name - *namep = zlen acc. *)
Fixpoint label_copy (fuel : nat) (b : buffer) (psz len label : Z) (acc : list Z) : res (list Z) :=
  match fuel with
  | O => Hang
  | S f =>
      c <- rd b label ;;
      if c =? 0 then Ok acc
      else
        label' <- skip_ptrs PTR_FUEL b len label (-1) ;;
        n <- rd b label' ;;
        if (255 <? zlen acc + n)
           || (MAX_PACKET_LEN <=? len + (zlen acc + n))
           || (MAX_PACKET_LEN <? label' + 1 + n)
        then Rej
        else
          data <- rdn b (label' + 1) n ;;
          _ <- wr psz (len + zlen acc) (n + 1) ;;
          label_copy f b psz len (label' + n + 1) (acc ++ data ++ [46])
  end.

(* libmdnsd/1035.c:134-136: advance past the name in the packet; returns the
   final value of label. *)
Fixpoint label_adv (fuel : nat) (b : buffer) (label : Z) : res Z :=
  match fuel with
  | O => Hang
  | S f =>
      c <- rd b label ;;
      if c =? 0 then Ok label
      else if negb (Z.land c 192 =? 0) then Ok (label + 1)
      else label_adv f b (label + c + 1)
  end.

(* libmdnsd/1035.c:97-155 _label.  [slot] is the offset in the block of the
   pointer variable *namep.  Returns the new state, the advanced buffer
   position and the name. *)
Definition label_parse (b : buffer) (psz : Z) (s : pst) (slot p : Z) : res (pst * Z * list Z) :=
  if MAX_PACKET_LEN <=? ps_len s then Rej
  else
    _ <- wr psz slot 8 ;;
    name <- label_copy LABEL_FUEL b psz (ps_len s) p [] ;;
    e <- label_adv LABEL_FUEL b p ;;
    _ <- wr psz (ps_len s + zlen name) 1 ;;
    let str := cstr name in
    if existsb (bytes_eqb str) (ps_names s) then Ok (s, e + 1, str)
    else
      let names := if zlen (ps_names s) <? MAX_NUM_LABELS then ps_names s ++ [str] else ps_names s in
      Ok (mkpst (ps_len s + zlen name + 1) names
                ((ps_len s, zlen name + 1) :: ps_log s),
          e + 1, str).

(* The union [known] of struct resource, libmdnsd/1035.h:72-96; addresses as
   4 or 16 bytes in network order (the printable form known.a.name is not
   represented by value). *)
Inductive known : Type :=
| KNone
| KA (ip : list Z)
| KAAAA (ip6 : list Z)
| KName (name : list Z)                              (* ns, cname, ptr *)
| KSrv (priority weight port : Z) (name : list Z).

(* libmdnsd/1035.h:66-97 *)
Record resource : Type := mkresource {
  rr_name : list Z;
  rr_type : Z;
  rr_class : Z;
  rr_ttl : Z;
  rr_rdlength : Z;
  rr_rdata : option (list Z);
  rr_known : known
}.

(* libmdnsd/1035.h:52-55 *)
Record question : Type := mkquestion { q_name : list Z; q_type : Z; q_class : Z }.

(* Take n bytes of the block for a new object (m->_len += n). *)
Definition alloc (s : pst) (n : Z) : pst :=
  mkpst (ps_len s + n) (ps_names s) ((ps_len s, n) :: ps_log s).

(* libmdnsd/1035.c:263-343: one iteration of the loop of _rrparse; [slot] is
   the offset of rr[i] in the block. *)
Definition rr_parse1 (b : buffer) (psz : Z) (s : pst) (slot p : Z) : res (pst * Z * resource) :=
  '(s, p, name) <- label_parse b psz s slot p ;;
  _ <- wr psz slot SIZEOF_RESOURCE ;;
  '(type, p) <- net2short b p ;;
  '(class, p) <- net2short b p ;;
  '(ttl, p) <- net2long b p ;;
  '(rdlength, p) <- net2short b p ;;
  if (MAX_PACKET_LEN <? rdlength + p) || (MAX_PACKET_LEN <? ps_len s + rdlength) then Rej
  else
    let isname := (type =? QTYPE_NS) || (type =? QTYPE_CNAME) || (type =? QTYPE_PTR) || (type =? QTYPE_SRV) in
    '(s, rdlength, rdata) <-
      (if isname then Ok (s, 0, None)
       else
         _ <- wr psz (ps_len s) rdlength ;;
         data <- rdn b p rdlength ;;
         Ok (alloc s rdlength, rdlength, Some data)) ;;
    if type =? QTYPE_A then
      if MAX_PACKET_LEN <? ps_len s + INET_ADDRSTRLEN then Rej
      else
        _ <- wr psz (ps_len s) INET_ADDRSTRLEN ;;
        ip <- rdn b p 4 ;;
        Ok (alloc s INET_ADDRSTRLEN, p + 4, mkresource name type class ttl rdlength rdata (KA ip))
    else if type =? QTYPE_AAAA then
      if MAX_PACKET_LEN <? ps_len s + INET6_ADDRSTRLEN then Rej
      else
        _ <- wr psz (ps_len s) INET6_ADDRSTRLEN ;;
        ip6 <- rdn b p 16 ;;
        Ok (alloc s INET6_ADDRSTRLEN, p + 16, mkresource name type class ttl rdlength rdata (KAAAA ip6))
    else if (type =? QTYPE_NS) || (type =? QTYPE_CNAME) || (type =? QTYPE_PTR) then
      '(s, p, target) <- label_parse b psz s (slot + 40) p ;;
      Ok (s, p, mkresource name type class ttl rdlength rdata (KName target))
    else if type =? QTYPE_SRV then
      '(priority, p) <- net2short b p ;;
      '(weight, p) <- net2short b p ;;
      '(port, p) <- net2short b p ;;
      '(s, p, target) <- label_parse b psz s (slot + 48) p ;;
      Ok (s, p, mkresource name type class ttl rdlength rdata (KSrv priority weight port target))
    else
      Ok (s, p + rdlength, mkresource name type class ttl rdlength rdata KNone).

(* libmdnsd/1035.c:263-346 _rrparse *)
Fixpoint rr_parse (b : buffer) (psz : Z) (s : pst) (count : nat) (slot p : Z) : res (pst * Z * list resource) :=
  match count with
  | O => Ok (s, p, [])
  | S n =>
      '(s, p, r) <- rr_parse1 b psz s slot p ;;
      '(s, p, rs) <- rr_parse b psz s n (slot + SIZEOF_RESOURCE) p ;;
      Ok (s, p, r :: rs)
  end.

(* libmdnsd/1035.c:407-412: the loop over the questions. *)
Fixpoint qd_parse (b : buffer) (psz : Z) (s : pst) (count : nat) (slot p : Z) : res (pst * Z * list question) :=
  match count with
  | O => Ok (s, p, [])
  | S n =>
      '(s, p, name) <- label_parse b psz s slot p ;;
      _ <- wr psz slot SIZEOF_QUESTION ;;
      '(type, p) <- net2short b p ;;
      '(class, p) <- net2short b p ;;
      '(s, p, qs) <- qd_parse b psz s n (slot + SIZEOF_QUESTION) p ;;
      Ok (s, p, mkquestion name type class :: qs)
  end.

(* libmdnsd/1035.h:99-109, the header bit fields. *)
Record header : Type := mkheader {
  h_qr : Z; h_opcode : Z; h_aa : Z; h_tc : Z; h_rd : Z; h_ra : Z; h_z : Z; h_rcode : Z
}.

(* libmdnsd/1035.h:99-111, the external data of struct message; the counts are
   the lengths of the lists. *)
Record message : Type := mkmessage {
  m_id : Z;
  m_header : header;
  m_qd : list question;
  m_an : list resource;
  m_ns : list resource;
  m_ar : list resource
}.

(* libmdnsd/1035.c:366-378: header bits from the two flag bytes. *)
Definition header_of (c0 c1 : Z) : header :=
  mkheader (if Z.land c0 128 =? 0 then 0 else 1)
           (Z.shiftr (Z.land c0 120) 3)
           (if Z.land c0 4 =? 0 then 0 else 1)
           (if Z.land c0 2 =? 0 then 0 else 1)
           (if Z.land c0 1 =? 0 then 0 else 1)
           (if Z.land c1 128 =? 0 then 0 else 1)
           (Z.shiftr (Z.land c1 112) 4)
           (Z.land c1 15).

(* libmdnsd/1035.c:349-353 macro my: align to 8, take n bytes.  Returns the
   state and the offset of the object.  Only objects of non-zero size are
   logged. *)
Definition my (s : pst) (n : Z) : pst * Z :=
  let l := (ps_len s + 7) / 8 * 8 in
  (mkpst (l + n) (ps_names s) (if n =? 0 then ps_log s else (l, n) :: ps_log s), l).

(* libmdnsd/1035.c:355-426 message_parse on a zeroed struct message; the
   result also carries the final parser state, so that properties can talk
   about the layout of the block, and the final buffer position. *)
Definition message_parse (b : buffer) (psz : Z) : res (message * pst * Z) :=
  '(id, p) <- net2short b 0 ;;
  c0 <- rd b p ;;
  c1 <- rd b (p + 1) ;;
  let p := p + 2 in
  '(qdcount, p) <- net2short b p ;;
  if MAX_PACKET_LEN - 8 <? SIZEOF_QUESTION * qdcount then Rej else
  '(ancount, p) <- net2short b p ;;
  if MAX_PACKET_LEN - 8 <? SIZEOF_RESOURCE * ancount then Rej else
  '(nscount, p) <- net2short b p ;;
  if MAX_PACKET_LEN - 8 <? SIZEOF_RESOURCE * nscount then Rej else
  '(arcount, p) <- net2short b p ;;
  if MAX_PACKET_LEN - 8 <? SIZEOF_RESOURCE * arcount then Rej else
  let '(s, qd_at) := my (mkpst 0 [] []) (SIZEOF_QUESTION * qdcount) in
  '(s, p, qd) <- qd_parse b psz s (Z.to_nat qdcount) qd_at p ;;
  let '(s, an_at) := my s (SIZEOF_RESOURCE * ancount) in
  let '(s, ns_at) := my s (SIZEOF_RESOURCE * nscount) in
  let '(s, ar_at) := my s (SIZEOF_RESOURCE * arcount) in
  '(s, p, an) <- rr_parse b psz s (Z.to_nat ancount) an_at p ;;
  '(s, p, ns) <- rr_parse b psz s (Z.to_nat nscount) ns_at p ;;
  '(s, p, ar) <- rr_parse b psz s (Z.to_nat arcount) ar_at p ;;
  Ok (mkmessage id (header_of c0 c1) qd an ns ar, s, p).

(* ------------------------------------------------------------------ *)
(** * Building a packet *)

(* A message being built from a zeroed struct message: the bytes of _packet
   up to _buf (everything beyond is zero), the offsets in _labels, the section
   counts, and whether a store past _packet has happened (undefined behaviour
   in C).  _buf == NULL and _buf == _packet + 12 are the same state here. *)
Record enc : Type := mkenc {
  e_out : list Z;
  e_labels : list Z;
  e_qd : Z; e_an : Z; e_ns : Z; e_ar : Z;
  e_ovf : bool
}.

(* memset(m, 0, sizeof(struct message)) and m->_buf = m->_packet + 12,
   libmdnsd/1035.c:431-432 and 440-441. *)
Definition enc_empty : enc := mkenc (repeat 0 12) [] 0 0 0 0 false.

(* libmdnsd/1035.c:548-554 message_packet_len *)
Definition packet_len (m : enc) : Z := zlen (e_out m).

(* Append bytes at _buf. *)
Definition put (m : enc) (l : list Z) : enc :=
  mkenc (e_out m ++ l) (e_labels m) (e_qd m) (e_an m) (e_ns m) (e_ar m)
        (e_ovf m || (MAX_PACKET_LEN <? packet_len m + zlen l)).

(* Pointers compared by _lmatch: into the local label array of _host or into
   _packet. *)
Inductive loc : Type := Lab (i : Z) | Pkt (o : Z).

(* Read a byte through such a pointer: the label array holds [lab]; _packet
   holds [out] and zeros beyond. *)
Definition lget (lab out : list Z) (l : loc) (k : Z) : Z :=
  match l with
  | Lab i => zget lab (i + k)
  | Pkt o => zget out (o + k)
  end.
Definition lmove (l : loc) (k : Z) : loc :=
  match l with
  | Lab i => Lab (i + k)
  | Pkt o => Pkt (o + k)
  end.
Definition loc_eqb (a b : loc) : bool :=
  match a, b with
  | Lab i, Lab j => i =? j
  | Pkt i, Pkt j => i =? j
  | _, _ => false
  end.

(* libmdnsd/1035.c:181-184: compare n label characters, starting at index k *)
Fixpoint lcmp (lab out : list Z) (l1 l2 : loc) (k : Z) (n : nat) : bool :=
  match n with
  | O => true
  | S n' => (lget lab out l1 k =? lget lab out l2 k) && lcmp lab out l1 l2 (k + 1) n'
  end.

(* libmdnsd/1035.c:158-196 _lmatch.  [cur] is the offset of m->_buf, relative
   to which the code follows pointers.  Fuel: each label compared consumes at
   least two bytes of the label array, and a followed pointer leads past the
   end of the packet where only zeros are; 520 is ample.  Running out of fuel
   would give false. *)
Fixpoint lmatch (fuel : nat) (lab out : list Z) (cur : Z) (l1 l2 : loc) : bool :=
  match fuel with
  | O => false
  | S f =>
      let c1 := lget lab out l1 0 in
      let c2 := lget lab out l2 0 in
      if negb (Z.land c1 192 =? 0) then
        lmatch f lab out cur (Pkt (cur + ldecomp_val c1 (lget lab out l1 1))) l2
      else if negb (Z.land c2 192 =? 0) then
        lmatch f lab out cur l1 (Pkt (cur + ldecomp_val c2 (lget lab out l2 1)))
      else if loc_eqb l1 l2 then true
      else if negb (c1 =? c2) then false
      else if c1 =? 0 then true
      else if negb (lcmp lab out l1 l2 1 (Z.to_nat c1)) then false
      else
        let l1 := lmove l1 (c1 + 1) in
        let l2 := lmove l2 (c2 + 1) in
        if (lget lab out l1 0 =? 0) && (lget lab out l2 0 =? 0) then true
        else lmatch f lab out cur l1 l2
  end.
Definition LMATCH_FUEL : nat := 520.

(* libmdnsd/1035.c:207-222: the loop making the label array.  [lab] is
   label[0..x-1] (label[last] still to be patched); the result is None when
   the name is too long. *)
Fixpoint mklabel (name : list Z) (lab : list Z) (last : Z) : option (list Z * Z) :=
  match name with
  | [] => Some (lab, last)
  | c :: rest =>
      let x := zlen lab in
      if (c =? 46) && (match rest with [] => true | _ => false end) then Some (lab, last)
      else
        let '(lab, last) :=
          if c =? 46 then (upd lab (Z.to_nat last) ((x - (last + 1)) mod 256) ++ [0], x)
          else (lab ++ [c], last) in
        if x =? 255 then None else mklabel rest lab last
  end.

(* libmdnsd/1035.c:224-228: patch the last length, terminate. *)
Definition finlabel (lab : list Z) (last : Z) : list Z :=
  let x := zlen lab in
  let lab := upd lab (Z.to_nat last) ((x - (last + 1)) mod 256) in
  if x =? 1 then [0] else lab ++ [0].

(* libmdnsd/1035.c:232-241: the first entry of _labels that matches. *)
Fixpoint find_label (lab out : list Z) (cur x : Z) (labels : list Z) : option Z :=
  match labels with
  | [] => None
  | o :: rest => if lmatch LMATCH_FUEL lab out cur (Lab x) (Pkt o) then Some o
                 else find_label lab out cur x rest
  end.

(* libmdnsd/1035.c:231-245: replace a suffix of the label array by a pointer.
   Returns the bytes to be copied into the packet (label[0..len-1]). *)
Fixpoint compress (fuel : nat) (lab out : list Z) (cur x : Z) (labels : list Z) : list Z :=
  match fuel with
  | O => lab
  | S f =>
      let c := zget lab x in
      if c =? 0 then lab
      else
        match find_label lab out cur x labels with
        | Some o =>
            match short2net o with
            | [h; l] => firstn (Z.to_nat x) lab ++ [Z.lor h 192; l]
            | _ => lab
            end
        | None => if negb (Z.land c 192 =? 0) then lab
                  else compress f lab out cur (x + c + 1) labels
        end
  end.

(* libmdnsd/1035.c:253-258: remember where each new label is. *)
Fixpoint newlabels (fuel : nat) (w : list Z) (base x : Z) (labels : list Z) : list Z :=
  match fuel with
  | O => labels
  | S f =>
      let c := zget w x in
      if (c =? 0) || negb (zlen labels <? MAX_NUM_LABELS) then labels
      else if negb (Z.land c 192 =? 0) then labels
      else newlabels f w base (x + c + 1) (labels ++ [base + x])
  end.

(* libmdnsd/1035.c:199-261 _host with bufp = &m->_buf; also returns its result,
   the number of bytes written. *)
Definition host (m : enc) (name : option (list Z)) : enc * Z :=
  match name with
  | None => (m, 0)
  | Some name =>
      match mklabel name [0] 0 with
      | None => (m, 0)
      | Some (lab, last) =>
          let cur := packet_len m in
          let w := compress LABEL_FUEL (finlabel lab last) (e_out m) cur 0 (e_labels m) in
          let m' := put m w in
          (mkenc (e_out m') (newlabels LABEL_FUEL w cur 0 (e_labels m))
                 (e_qd m) (e_an m) (e_ns m) (e_ar m) (e_ovf m'), zlen w)
      end
  end.

(* libmdnsd/1035.c:428-436 message_qd *)
Definition message_qd (m : enc) (name : option (list Z)) (type class : Z) : enc :=
  let m := mkenc (e_out m) (e_labels m) ((e_qd m + 1) mod 65536) (e_an m) (e_ns m) (e_ar m) (e_ovf m) in
  put (put (fst (host m name)) (short2net type)) (short2net class).

(* libmdnsd/1035.c:438-446 _rrappend *)
Definition rrappend (m : enc) (name : option (list Z)) (type class ttl : Z) : enc :=
  put (put (put (fst (host m name)) (short2net type)) (short2net class)) (long2net ttl).

(* libmdnsd/1035.c:448-464 message_an, message_ns, message_ar *)
Definition message_an (m : enc) (name : option (list Z)) (type class ttl : Z) : enc :=
  rrappend (mkenc (e_out m) (e_labels m) (e_qd m) ((e_an m + 1) mod 65536) (e_ns m) (e_ar m) (e_ovf m)) name type class ttl.
Definition message_ns (m : enc) (name : option (list Z)) (type class ttl : Z) : enc :=
  rrappend (mkenc (e_out m) (e_labels m) (e_qd m) (e_an m) ((e_ns m + 1) mod 65536) (e_ar m) (e_ovf m)) name type class ttl.
Definition message_ar (m : enc) (name : option (list Z)) (type class ttl : Z) : enc :=
  rrappend (mkenc (e_out m) (e_labels m) (e_qd m) (e_an m) (e_ns m) ((e_ar m + 1) mod 65536) (e_ovf m)) name type class ttl.

(* libmdnsd/1035.c:466-470 message_rdata_long *)
Definition rdata_long (m : enc) (l : Z) : enc := put (put m (short2net 4)) (long2net l).
(* libmdnsd/1035.c:472-477 message_rdata_ipv4, the address as 4 bytes *)
Definition rdata_ipv4 (m : enc) (a : list Z) : enc := put (put m (short2net 4)) a.
(* libmdnsd/1035.c:479-484 message_rdata_ipv6, the address as 16 bytes *)
Definition rdata_ipv6 (m : enc) (a : list Z) : enc := put (put m (short2net 16)) a.

(* Overwrite the two bytes at offset o (short2net through mybuf). *)
Definition patch2 (m : enc) (o : Z) (v : Z) : enc :=
  match short2net v with
  | [h; l] => mkenc (upd (upd (e_out m) (Z.to_nat o) h) (Z.to_nat (o + 1)) l)
                    (e_labels m) (e_qd m) (e_an m) (e_ns m) (e_ar m) (e_ovf m)
  | _ => m
  end.

(* libmdnsd/1035.c:486-492 message_rdata_name *)
Definition rdata_name (m : enc) (name : option (list Z)) : enc :=
  let mybuf := packet_len m in
  let '(m, n) := host (put m [0; 0]) name in
  patch2 m mybuf n.

(* libmdnsd/1035.c:494-503 message_rdata_srv *)
Definition rdata_srv (m : enc) (priority weight port : Z) (name : option (list Z)) : enc :=
  let mybuf := packet_len m in
  let m := put (put (put (put m [0; 0]) (short2net priority)) (short2net weight)) (short2net port) in
  let '(m, n) := host m name in
  patch2 m mybuf (n + 6).

(* libmdnsd/1035.c:505-512 message_rdata_raw *)
Definition rdata_raw (m : enc) (rdata : list Z) (rdlength : Z) : enc :=
  let n := if 4096 <? packet_len m + rdlength then 0 else rdlength in
  put (put m (short2net n)) (firstn (Z.to_nat n) rdata).

(* libmdnsd/1035.c:514-546 message_packet: fill in the header.  The flag bytes
   are or-ed into what is there, which is zero. *)
Definition flag (v bit : Z) : Z := if v =? 0 then 0 else bit.
Definition message_packet (m : enc) (id : Z) (h : header) : list Z :=
  let f0 := Z.lor (Z.lor (Z.lor (Z.lor (flag (h_qr h) 128) (Z.shiftl (h_opcode h) 3 mod 256))
                          (flag (h_aa h) 4)) (flag (h_tc h) 2)) (flag (h_rd h) 1) in
  let f1 := Z.lor (Z.lor (flag (h_ra h) 128) (Z.shiftl (h_z h) 4 mod 256)) (h_rcode h) in
  short2net id ++ [f0; f1] ++ short2net (e_qd m) ++ short2net (e_an m)
    ++ short2net (e_ns m) ++ short2net (e_ar m) ++ skipn 12 (e_out m).
