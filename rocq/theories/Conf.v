(* Model of src/conf.c: the .service files and the host name.  What load() does
   with them is in Load.v. *)
From Verif Require Import Base Lib.

(* conf.c:43-54.  The strings by their contents; txt[] by its first txt_num
   elements.  strdup does not fail. *)
Record conf_srec : Type := mksrec { s_type : option (list Z); s_name : option (list Z); s_port : Z; s_target : option (list Z); s_cname : option (list Z); s_txt : list (list Z) }.
(* conf.c:194 *)
Definition srec_zero : conf_srec := mksrec None None 0 None None [].
Definition TXT_MAX : Z := 42.

(* conf.c:67-68 while *p is a newline; p as index into the line *)
Fixpoint chomp_loop (fuel : nat) (str : list Z) (p : Z) : res (list Z) :=
  match fuel with
  | O => Hang
  | S fuel => c <- cget str p;; if c =? 10 then str <- cset str p 0;; chomp_loop fuel str (p - 1) else Ok str
  end.
(* conf.c:57-71.  str is the object from the pointer on; the flag is false for
   NULL.  strlen reads to the first NUL. *)
Definition chomp (str : list Z) : res (list Z * bool) :=
  n <- strlcpy_skip (S (length str)) str 0;;
  let n := n - 1 in
  if n <? 1 then Ok (str, false)
  else str <- chomp_loop (S (length str)) str (n - 1);; Ok (str, true).

(* strsep(3) with " \t" on a string: the token, and what is behind the
   delimiter, or NULL *)
Fixpoint strsep (s : list Z) : list Z * option (list Z) :=
  match s with
  | [] => ([], None)
  | c :: t => if (c =? 32) || (c =? 9) then ([], Some t) else let '(a, b) := strsep t in (c :: a, b)
  end.

Definition K_TYPE : list Z := [116; 121; 112; 101].
Definition K_NAME : list Z := [110; 97; 109; 101].
Definition K_PORT : list Z := [112; 111; 114; 116].
Definition K_TARGET : list Z := [116; 97; 114; 103; 101; 116].
Definition K_CNAME : list Z := [99; 110; 97; 109; 101].
Definition K_TXT : list Z := [116; 120; 116].

(* conf.c:94-115 *)
Definition keyword (token arg : list Z) (s : conf_srec) : conf_srec :=
  let '(mksrec ty nm po tg cn tx) := s in
  if bytes_eqb token K_TYPE then mksrec (Some arg) nm po tg cn tx
  else if bytes_eqb token K_NAME then mksrec ty (Some arg) po tg cn tx
  else if bytes_eqb token K_PORT then mksrec ty nm (as_int (fst (strtol arg))) tg cn tx
  else if bytes_eqb token K_TARGET then mksrec ty nm po (Some arg) cn tx
  else if bytes_eqb token K_CNAME then mksrec ty nm po tg (Some arg) tx
  else if bytes_eqb token K_TXT && (zlen tx <? TXT_MAX) then mksrec ty nm po tg cn (tx ++ [arg])
  else s.
(* conf.c:78-116.  The line as the object it is in; the strings in it are read
   from there after chomp has made sure of their end. *)
Definition read_line (line : list Z) (s : conf_srec) : res (list Z * conf_srec) :=
  '(line, arg) <- chomp line;;
  c <- cget line 0;;
  if c =? 35 then Ok (line, s)
  else if arg then
    match strsep (cstr line) with
    | (token, Some a) => Ok (line, keyword token a s)
    | (_, None) => Ok (line, s)
    end
  else Ok (line, s).

(* fgets(3): up to n bytes, ending behind the first newline; what is left of the
   file *)
Fixpoint fgets (n : nat) (file : list Z) : list Z * list Z :=
  match n, file with
  | S n, c :: file => if c =? 10 then ([c], file) else let '(a, b) := fgets n file in (c :: a, b)
  | _, _ => ([], file)
  end.
Definition LINE : Z := 256.
(* conf.c:128-129 *)
Fixpoint parse_loop (fuel : nat) (line file : list Z) (s : conf_srec) : res conf_srec :=
  match fuel with
  | O => Hang
  | S fuel =>
      match file with
      | [] => Ok s
      | _ =>
          let '(got, file) := fgets (Z.to_nat (LINE - 1)) file in
          '(line, s) <- read_line (got ++ 0 :: skipn (S (length got)) line) s;;
          parse_loop fuel line file s
      end
  end.
(* conf.c:118-134: the contents of a file that can be opened, and what line[]
   holds at first *)
Definition parse (line file : list Z) (s : conf_srec) : res conf_srec := parse_loop (S (length file)) line file s.

(* printf's %d for a positive number *)
Fixpoint dec_loop (fuel : nat) (n : Z) (acc : list Z) : list Z :=
  match fuel with
  | O => acc
  | S fuel => let acc := (48 + n mod 10) :: acc in if n / 10 =? 0 then acc else dec_loop fuel (n / 10) acc
  end.
Definition dec (n : Z) : list Z := dec_loop 20 n [].

Definition HOSTNAME : Z := 255.
(* conf.c:291-302 *)
Definition add_hostid (hostname : list Z) (hostid : Z) : res (list Z) :=
  if 1 <? hostid then
    let text := 45 :: dec hostid in
    let suffix := firstn 15 text ++ [0] in
    let slen := zlen text + 1 in
    n <- strlcpy_skip (S (length hostname)) hostname 0;;
    let hlen := n - 1 in
    let hlen := if HOSTNAME <=? hlen + slen then HOSTNAME - slen else hlen in
    '(t, _) <- strlcpy (skipn (Z.to_nat hlen) hostname) suffix (HOSTNAME - hlen);;
    Ok (firstn (Z.to_nat hlen) hostname ++ t)
  else Ok hostname.
(* conf.c:278-302 with a host name given, or what gethostname(2) gives: hostname[]
   afterwards.  hostname is what it holds at first. *)
Definition conf_hostname (hostname hostnm : list Z) (hostid : Z) : res (list Z) :=
  '(hostname, _) <- strlcpy hostname hostnm HOSTNAME;;
  add_hostid hostname hostid.
