(* Model of the reading of the command line in main(), src/mdnsd.c:295-376.
   getopt itself is the C library's: what it returns is the input. *)
From Verif Require Import Base Lib Log.

(* What getopt returns, with its argument.  GBad: '?', given for an option that is
   not known or whose argument is missing, and for "-?" itself *)
Inductive given : Type := GHost (s : list Z) | GHelp | GIface (s : list Z) | GLevel (s : list Z) | GForeground | GSyslog | GTtl (s : list Z) | GVersion | GBad.

(* mdnsd.c:54-60 the static variables *)
Record config : Type := mkconfig { c_host : option (list Z); c_iface : option (list Z); c_path : list Z; c_background : bool; c_logging : Z; c_ttl : Z; c_log : logger }.
Definition config0 : config := mkconfig None None [] true 1 255 log_new.

Inductive reading : Type := Going (c : config) | Exits (code : Z).

(* mdnsd.c:322-365 one turn of the loop *)
Definition take (c : config) (o : given) : reading :=
  match o with
  | GHost s => Going (mkconfig (Some s) (c_iface c) (c_path c) (c_background c) (c_logging c) (c_ttl c) (c_log c))
  | GHelp | GBad => Exits 0
  | GIface s => Going (mkconfig (c_host c) (Some s) (c_path c) (c_background c) (c_logging c) (c_ttl c) (c_log c))
  | GLevel s => let '(g, lvl, _) := log_level (c_log c) s in
      if lvl =? -1 then Exits 1 else Going (mkconfig (c_host c) (c_iface c) (c_path c) (c_background c) (c_logging c) (c_ttl c) g)
  | GForeground => Going (mkconfig (c_host c) (c_iface c) (c_path c) false (c_logging c - 1) (c_ttl c) (c_log c))
  | GSyslog => Going (mkconfig (c_host c) (c_iface c) (c_path c) (c_background c) (c_logging c + 1) (c_ttl c) (c_log c))
  | GTtl s => let t := atoi s in
      if (t <? 1) || (255 <? t) then Exits 1 else Going (mkconfig (c_host c) (c_iface c) (c_path c) (c_background c) (c_logging c) t (c_log c))
  | GVersion => Exits 0
  end.
Fixpoint take_all (c : config) (os : list given) : reading :=
  match os with
  | [] => Going c
  | o :: os => match take c o with Going c => take_all c os | e => e end
  end.

(* mdnsd.c:368-374: the path, the first operand if there is one ("/etc/mdns.d"), and
   syslog *)
Definition ETC : list Z := [47; 101; 116; 99; 47; 109; 100; 110; 115; 46; 100].
Definition read_options (os : list given) (operands : list (list Z)) : reading :=
  match take_all config0 os with
  | Going c =>
      let path := match operands with p :: _ => p | [] => ETC end in
      let g := if 0 <? c_logging c then fst (log_open (c_log c)) else c_log c in
      Going (mkconfig (c_host c) (c_iface c) path (c_background c) (c_logging c) (c_ttl c) g)
  | e => e
  end.

(* mdnsd.c:295-306 progname: strrchr gives what begins with the last '/' *)
Fixpoint strrchr (s : list Z) (c : Z) : option (list Z) :=
  match s with
  | [] => None
  | x :: t => match strrchr t c with Some r => Some r | None => if x =? c then Some s else None end
  end.
Definition progname (arg0 : list Z) : list Z := match strrchr arg0 47 with Some r => tl r | None => arg0 end.
