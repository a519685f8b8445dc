(* Model of conf_init() of src/conf.c: which files are read, and what is loaded
   from them.  glob(3) of the GNU C library is modelled for the flags used:
   GLOB_ERR | GLOB_TILDE. *)
From Verif Require Import Base Lib Hash Rec Qry Out In Api Conf Load.

(* What is at a path.  Dir None: a directory that cannot be read; a file that cannot be
   opened is Locked. *)
Inductive node : Type := Missing | File (content : list Z) | Locked | Dir (names : option (list (list Z))).
Definition disk : Type := list Z -> node.

Definition S_PATTERN : list Z := [42; 46; 115; 101; 114; 118; 105; 99; 101].   (* "*.service" *)
(* src/conf.c:314-321 pat[], strlen(path) + 64 bytes *)
Definition pattern (path : list Z) : res (list Z) :=
  match path with
  | [] => UB (OobRead (-1))
  | _ =>
      let pat := (if zget path (zlen path - 1) =? 47 then path else path ++ [47]) ++ S_PATTERN in
      if zlen pat + 1 <=? zlen path + 64 then Ok pat else UB (OobWrite (zlen path + 64))
  end.

(* fnmatch(3) without brackets: star, question mark, backslash *)
Fixpoint fnm (p : list Z) : list Z -> bool :=
  match p with
  | [] => fun n => match n with [] => true | _ => false end
  | c :: p' =>
      if c =? 42 then (fix star n := fnm p' n || match n with [] => false | _ :: n => star n end)
      else if c =? 63 then fun n => match n with [] => false | _ :: n => fnm p' n end
      else if c =? 92 then
        match p' with
        | [] => fun n => match n with [x] => x =? 92 | _ => false end
        | b :: q => fun n => match n with [] => false | x :: n => (x =? b) && fnm q n end
        end
      else fun n => match n with [] => false | x :: n => (x =? c) && fnm p' n end
  end.
(* FNM_PERIOD *)
Definition hidden (n : list Z) : bool := match n with c :: _ => c =? 46 | [] => false end.
Definition shows_hidden (p : list Z) : bool := match p with c :: b :: _ => (c =? 46) || ((c =? 92) && (b =? 46)) | [c] => c =? 46 | [] => false end.
Definition fnmatch (p n : list Z) : bool := (negb (hidden n) || shows_hidden p) && fnm p n.

Definition wild (p : list Z) : bool := existsb (fun c => (c =? 42) || (c =? 63)) p.
Fixpoint unquote (p : list Z) : list Z :=
  match p with
  | [] => []
  | c :: p' => if c =? 92 then match p' with [] => [c] | b :: q => b :: unquote q end else c :: unquote p'
  end.
(* The components of a path, each but the last with the slash behind it *)
Fixpoint components (p : list Z) : list (list Z) :=
  match p with
  | [] => [[]]
  | c :: p' => if c =? 47 then [c] :: components p' else match components p' with x :: l => (c :: x) :: l | [] => [[c]] end
  end.
Definition is_dir (n : node) : bool := match n with Dir _ => true | _ => false end.

(* The directories that the directory part of the pattern means; None if one cannot
   be read *)
Fixpoint dirs (fs : disk) (at_ : list Z) (comps : list (list Z)) : option (list (list Z)) :=
  match comps with
  | [] => Some [at_]
  | c :: comps =>
      if wild c then
        match fs (match at_ with [] => [46] | _ => at_ end) with
        | Dir (Some names) =>
            (fix each l := match l with
                           | [] => Some []
                           | n :: l =>
                               if fnmatch (removelast c) n && is_dir (fs (at_ ++ n)) then
                                 match dirs fs (at_ ++ n ++ [47]) comps, each l with Some a, Some b => Some (a ++ b) | _, _ => None end
                               else each l
                           end) names
        | Dir None => None
        | _ => Some []
        end
      else dirs fs (at_ ++ unquote c) comps
  end.
(* The files in these directories that match *)
Fixpoint matches (fs : disk) (last : list Z) (l : list (list Z)) : option (list (list Z)) :=
  match l with
  | [] => Some []
  | at_ :: l =>
      match fs at_ with
      | Dir (Some names) => match matches fs last l with Some r => Some (map (fun n => at_ ++ n) (filter (fnmatch last) names) ++ r) | None => None end
      | Dir None => None
      | _ => matches fs last l
      end
  end.
(* strcoll(3) in the C locale, which mdnsd does not change *)
Fixpoint before (a b : list Z) : bool :=
  match a, b with
  | [], _ => true
  | _ :: _, [] => false
  | x :: a, y :: b => (x <? y) || ((x =? y) && before a b)
  end.
Fixpoint insert (x : list Z) (l : list (list Z)) : list (list Z) :=
  match l with [] => [x] | y :: l' => if before x y then x :: l else y :: insert x l' end.
Definition sort (l : list (list Z)) : list (list Z) := fold_right insert [] l.
(* Patterns with brackets, or a tilde at the start, are not modelled: expand gives
   what they mean.  None: an error, or nothing was found *)
Definition glob (fs : disk) (expand : list Z -> option (list (list Z))) (pat : list Z) : option (list (list Z)) :=
  if existsb (Z.eqb 91) pat || (match pat with c :: _ => c =? 126 | [] => false end) then expand pat
  else
    let comps := components pat in
    match dirs fs [] (removelast comps) with
    | None => None
    | Some ds =>
        match matches fs (List.last comps []) ds with
        | None | Some [] => None
        | Some l => Some (sort l)
        end
    end.

(* src/conf.c:118-134 fopen and fgets: a directory can be opened, but nothing be read *)
Definition contents (n : node) : option (list Z) := match n with File c => Some c | Dir _ => Some [] | _ => None end.
(* src/conf.c:182-265 load for one context, with the result; line is what line[] of
   parse holds at first *)
Definition load_path (fs : disk) (line : list Z) (d : daemon) (e : env) (ifname hostname path : list Z) : res (daemon * Z) :=
  match contents (fs path) with
  | None => Ok (d, 1)
  | Some c => s <- parse line c srec_zero;; d <- load d e ifname hostname s;; Ok (d, 0)
  end.
(* src/conf.c:268-275 load_all *)
Definition load_all (fs : disk) (line : list Z) (d : daemon) (d6 : option daemon) (e : env) (ifname hostname path : list Z) : res (daemon * option daemon * Z) :=
  '(d, rc) <- load_path fs line d e ifname hostname path;;
  match d6 with
  | None => Ok (d, None, rc)
  | Some x => '(x, rc6) <- load_path fs line x e ifname hostname path;; Ok (d, Some x, Z.lor rc rc6)
  end.
(* src/conf.c:340-341, 346 *)
Fixpoint load_each (fs : disk) (line : list Z) (d : daemon) (d6 : option daemon) (e : env) (ifname hostname : list Z) (rc : Z) (l : list (list Z)) : res (daemon * option daemon * Z) :=
  match l with
  | [] => Ok (d, d6, rc)
  | p :: l => '(d, d6, r) <- load_all fs line d d6 e ifname hostname p;; load_each fs line d d6 e ifname hostname (Z.lor rc r) l
  end.
(* A C string: what is before the first zero *)
Fixpoint cstr (l : list Z) : list Z := match l with [] => [] | c :: l => if c =? 0 then [] else c :: cstr l end.
(* src/conf.c:276-349 conf_init.  hostbuf is what hostname[] holds at first, hostnm
   the host name given or what gethostname(2) gives. *)
Definition conf_init (fs : disk) (expand : list Z -> option (list (list Z))) (line hostbuf hostnm : list Z) (hostid : Z) (path : list Z) (d : daemon) (d6 : option daemon) (e : env) (ifname : list Z) :
  res (daemon * option daemon * Z) :=
  hostbuf <- conf_hostname hostbuf hostnm hostid;;
  let hostname := cstr hostbuf in
  match fs path with
  | Missing => Ok (d, d6, 1)
  | Dir _ =>
      pat <- pattern path;;
      match glob fs expand pat with
      | None => Ok (d, d6, 1)
      | Some l => load_each fs line d d6 e ifname hostname 0 l
      end
  | _ => load_each fs line d d6 e ifname hostname 0 [path]
  end.
