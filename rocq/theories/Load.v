(* Model of src/conf.c: what load() publishes for a .service file. *)
From Verif Require Import Base Hash Xht SdTxt Wire Rec Qry Out In Api Lib Conf.

(* strings of the code *)
Definition S_LOCAL : list Z := [46; 108; 111; 99; 97; 108; 46].   (* ".local." *)
Definition S_HTTP : list Z := [95; 104; 116; 116; 112; 46; 95; 116; 99; 112].   (* "_http._tcp" *)
(* snprintf(3) into one of the arrays of 256 bytes *)
Definition cut255 (s : list Z) : list Z := firstn 255 s.
(* conf.c:138-143 fqdn *)
Definition fqdn (name : list Z) : list Z := cut255 (name ++ (if negb (Nat.eqb (length name) 0) && (zget name (zlen name - 1) =? 46) then [] else [46])).

(* conf.c:152-170 from the record found on: the list are the records that
   mdnsd_record_next leads to.  mdnsd_record_data is not NULL. *)
Fixpoint walk (h : heap) (l : list nat) (host : list Z) : res (option nat) :=
  match l with
  | [] => Ok None
  | x :: l =>
      X <- hget h x;;
      match a_rdname (rr X) with
      | Some n => if bytes_eqb n host then Ok (Some x) else walk h l host
      | None => Ok (Some x)
      end
  end.
(* conf.c:145-183 record().  The conflict callback is mdnsd_conflict: number 0. *)
Definition conf_record (d : daemon) (e : env) (shared : bool) (host : option (list Z)) (name : list Z) (type ttl : Z) : res (daemon * nat) :=
  r <- mdnsd_find (R d) name type;;
  r <- match r, host with
       | Some x, Some host => walk (hp (R d)) (x :: tail_after x (mdnsd_get_published (R d) name)) host
       | _, _ => Ok r
       end;;
  match r with
  | Some x => Ok (d, x)
  | None =>
      '(d, x) <- step d e (if shared then OShared name type ttl else OUnique name type ttl (Some 0%nat));;
      match x, host with
      | RRec r, Some host => '(d, _) <- step d e (OSetHost r host);; Ok (d, r)
      | RRec r, None => Ok (d, r)
      | _, _ => UB NullDeref
      end
  end.

(* conf.c:241-251: the table of the txt lines *)
Fixpoint txt_table (l : list (list Z)) (h : xht) : xht :=
  match l with
  | [] => h
  | t :: l => txt_table l (if existsb (Z.eqb 61) t then let '(k, v) := split_eq t in xht_set h k (Some v) else h)
  end.

(* conf.c:199-213 *)
Definition tlocal (s : conf_srec) : list Z := cut255 ((match s_type s with Some t => t | None => S_HTTP end) ++ S_LOCAL).
Definition hlocal (s : conf_srec) (hostname : list Z) : list Z :=
  cut255 ((match s_name s with Some n => n | None => hostname end) ++ 46 :: (match s_type s with Some t => t | None => S_HTTP end) ++ S_LOCAL).
Definition tgtlocal (s : conf_srec) (hostname : list Z) : list Z :=
  match s_target s with Some t => fqdn t | None => cut255 (hostname ++ S_LOCAL) end.

(* conf.c:185-265 load(), after parse().  The port is converted to unsigned
   short. *)
Definition load (d : daemon) (e : env) (ifname hostname : list Z) (s : conf_srec) : res daemon :=
  '(d, _) <- conf_record d e true (Some (tlocal s)) DISCO_NAME QTYPE_PTR 120;;
  '(d, _) <- conf_record d e true (Some (hlocal s hostname)) (tlocal s) QTYPE_PTR 120;;
  '(d, r) <- conf_record d e false None (hlocal s hostname) QTYPE_SRV 120;;
  '(d, _) <- step d e (OSetSrv r 0 0 (s_port s mod 65536) (tgtlocal s hostname));;
  '(d, _) <- conf_record d e false None (tgtlocal s hostname) QTYPE_A 120;;
  '(d, _) <- conf_record d e false None (tgtlocal s hostname) QTYPE_AAAA 120;;
  '(d, _) <- step d e (OSetIfaddrs ifname);;
  d <- match s_cname s with
       | Some c => '(d, _) <- conf_record d e true (Some (tgtlocal s hostname)) (fqdn c) QTYPE_CNAME 120;; Ok d
       | None => Ok d
       end;;
  '(d, r) <- conf_record d e false None (hlocal s hostname) QTYPE_TXT 4500;;
  packet <- sd2txt (txt_table (s_txt s) (xht_new 11));;
  '(d, _) <- step d e (OSetRaw r packet);;
  Ok d.

(* conf.c:339-342 for one of the contexts, the files read *)
Fixpoint load_files (d : daemon) (e : env) (ifname hostname : list Z) (l : list conf_srec) : res daemon :=
  match l with
  | [] => Ok d
  | s :: l => d <- load d e ifname hostname s;; load_files d e ifname hostname l
  end.
