(* Model of libmdnsd/log.c but for the level parser, which is in Lib.v, and for
   mdnsd_log_time. *)
From Verif Require Import Base Lib.

(* log.c:70-71 the two static variables *)
Record logger : Type := mklogger { l_syslog : bool; l_level : Z }.
Definition log_new : logger := mklogger false 5.

(* sys/syslog.h LOG_UPTO: (1 << (pri + 1)) - 1 on int; None if the shift or the
   subtraction overflows *)
Definition log_upto (pri : Z) : option Z := if (0 <=? pri) && (pri <? 30) then Some (2 ^ (pri + 1) - 1) else None.

(* What a call asks of the system: nothing, setlogmask, vsyslog, a line on
   stderr or stdout; Undefined: LOG_UPTO overflows *)
Inductive effect : Type := Nothing | SetMask (m : Z) | Syslog | Stderr | Stdout | Undefined.
Definition set_mask (lvl : Z) : effect := match log_upto lvl with Some m => SetMask m | None => Undefined end.

(* log.c:73-96 mdnsd_log_level *)
Definition log_level (g : logger) (level : list Z) : logger * Z * effect :=
  let '(lvl, new) := mdnsd_log_level (l_level g) level in
  (mklogger (l_syslog g) new, lvl, if l_syslog g then set_mask new else Nothing).
(* log.c:98-103 mdnsd_log_open *)
Definition log_open (g : logger) : logger * effect := (mklogger true (l_level g), set_mask (l_level g)).
(* log.c:140-162 mdnsd_log: where the message goes *)
Definition log_to (g : logger) (severity : Z) : effect :=
  if l_level g =? LOG_NONE then Nothing
  else if l_syslog g then Syslog
  else if severity <=? l_level g then if 4 <? severity then Stdout else Stderr
  else Nothing.

(* A run of calls.  The system's part: setlogmask and the filter of syslog, whose
   mask lets everything through at first; None after an overflow *)
Inductive logcall : Type := CLevel (s : list Z) | COpen.
Definition apply_mask (m : option Z) (e : effect) : option Z := match e with SetMask m' => match m with Some _ => Some m' | None => None end | Undefined => None | _ => m end.
Definition log_call (w : logger * option Z) (c : logcall) : logger * option Z :=
  match c with
  | CLevel s => let '(g, _, e) := log_level (fst w) s in (g, apply_mask (snd w) e)
  | COpen => let '(g, e) := log_open (fst w) in (g, apply_mask (snd w) e)
  end.
Definition log_calls (cs : list logcall) : logger * option Z := fold_left log_call cs (log_new, Some 255).
(* Where a message is seen in the end *)
Definition log_seen (w : logger * option Z) (severity : Z) : effect :=
  match log_to (fst w) severity with
  | Syslog => match snd w with Some m => if Z.testbit m severity then Syslog else Nothing | None => Undefined end
  | e => e
  end.

(* What mdnsd_log_level returns, which does not depend on the level before *)
Definition level_asked (c : logcall) : list Z := match c with CLevel s => [fst (mdnsd_log_level 5 s)] | COpen => [] end.

(* printf "%02X " and "%06x ", the latter for values below 2^24 *)
Definition digit (upper : bool) (v : Z) : Z := if v <? 10 then 48 + v else (if upper then 55 else 87) + v.
Definition hex2 (v : Z) : list Z := [digit true (v / 16); digit true (v mod 16); 32].
Definition hex6 (v : Z) : list Z :=
  [digit false (v / 1048576 mod 16); digit false (v / 65536 mod 16); digit false (v / 4096 mod 16); digit false (v / 256 mod 16); digit false (v / 16 mod 16); digit false (v mod 16); 32].
(* isprint in the C locale *)
Definition is_print (c : Z) : bool := (32 <=? c) && (c <? 127).
(* printf "%s" *)
Fixpoint cstring (s : list Z) : res (list Z) :=
  match s with
  | [] => UB (OobRead 0)
  | c :: t => if c =? 0 then Ok [] else r <- cstring t;; Ok (c :: r)
  end.

(* log.c:119-128 the loop; rest is what is left of the len bytes from i on *)
Fixpoint hex_loop (rest : list Z) (i : Z) (ascii out : list Z) : res (Z * list Z * list Z) :=
  match rest with
  | [] => Ok (i, ascii, out)
  | b :: rest =>
      out <- (if i mod 16 =? 0 then a <- cstring ascii;; Ok (out ++ a ++ [10] ++ hex6 i) else Ok out);;
      ascii <- cset ascii (i mod 16) (if is_print b then b else 46);;
      hex_loop rest (i + 1) ascii (out ++ hex2 b)
  end.
(* log.c:131-134 *)
Fixpoint pad_loop (fuel : nat) (i : Z) (out : list Z) : res (list Z) :=
  match fuel with
  | O => Hang
  | S fuel => if i mod 16 =? 0 then Ok out else pad_loop fuel (i + 1) (out ++ [32; 32; 32])
  end.
(* log.c:105-138 mdnsd_log_hex: what is printed *)
Definition log_hex (g : logger) (msg buffer : list Z) : res (list Z) :=
  if l_syslog g then Ok []
  else if l_level g <? 7 then Ok []
  else
    '(i, ascii, out) <- hex_loop buffer 0 (repeat 0 17) msg;;
    ascii <- cset ascii (i mod 16) 0;;
    out <- pad_loop 17 i out;;
    a <- cstring ascii;;
    Ok (out ++ a ++ [10; 10]).
