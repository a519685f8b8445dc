(* The properties of logging (C101, C102). *)
From Verif Require Import Base Lib SpecLib Log SpecLog FactsLog.

(* C101: after any calls that set the level, to less than 30, or turn to syslog, a
   message is seen exactly if the level is not 16 (none) and its severity is no
   more than the level.  It is given to syslog if that was ever asked for;
   otherwise warnings and worse go to stderr, the rest to stdout. *)
Theorem C101_partial : forall cs l sev, Forall (fun v => v < 30) (concat (map level_asked cs)) -> level_holds (concat (map level_asked cs)) l -> 0 <= sev <= 7 ->
  log_seen (log_calls cs) sev = if (l =? 16) || (l <? sev) then Nothing else if existsb (fun c => match c with COpen => true | _ => false end) cs then Syslog else if sev <=? 4 then Stderr else Stdout.
Proof. exact seen. Qed.
Print Assumptions C101_partial.

(* "info" before and "err" after the turn to syslog *)
Example C101_case : let cs := [CLevel [105; 110; 102; 111]; COpen; CLevel [101; 114; 114]] in
  level_holds (concat (map level_asked cs)) 3 /\ Forall (fun v => v < 30) (concat (map level_asked cs)) /\
  log_seen (log_calls cs) 3 = Syslog /\ log_seen (log_calls cs) 4 = Nothing /\ log_seen (log_calls [CLevel [105; 110; 102; 111]]) 6 = Stdout /\ log_seen (log_calls []) 6 = Nothing.
Proof. cbv zeta. split; [apply (level_set [6] 3); lia |]. split; [repeat constructor |]. repeat split; vm_compute; reflexivity. Qed.

(* A level of 30 or more is accepted, and overflows when syslog is used *)
Theorem C101_refuted_level : forall ds, is_dec ds -> 30 <= dec_value ds < 2 ^ 31 -> fst (mdnsd_log_level 5 ds) = dec_value ds /\ snd (log_open (fst (log_calls [CLevel ds]))) = Undefined.
Proof. exact big_level. Qed.
Print Assumptions C101_refuted_level.

(* With the level "none" every packet is dumped, which less than "debug" prevents *)
Theorem C101_refuted_none : exists none, level_word none 16 /\ forall msg buf, Forall (fun b => 0 <= b < 256) buf ->
  exists text, lines full_line as_shown 0 buf text /\ log_hex (fst (log_calls [CLevel none])) msg buf = Ok (msg ++ text ++ [10; 10]).
Proof. exact none_dumps. Qed.
Print Assumptions C101_refuted_none.

(* C102: a dump shows all bytes with their offsets, in lines of 16, and as
   characters, except that the characters of the last line are missing if it is
   full.  Nothing is written outside the array for the characters. *)
Theorem C102_partial : forall g msg buf, l_syslog g = false -> 7 <= l_level g -> Forall (fun b => 0 <= b < 256) buf -> (buf = [] \/ (length buf mod 16 <> 0)%nat) ->
  exists text, lines full_line full_line 0 buf text /\ log_hex g msg buf = Ok (msg ++ text ++ [10; 10]).
Proof. exact dump_full. Qed.
Print Assumptions C102_partial.

Theorem C102_any : forall g msg buf, l_syslog g = false -> 7 <= l_level g -> Forall (fun b => 0 <= b < 256) buf ->
  exists text, lines full_line (fun off row => if (length row =? 16)%nat then left_part off row else full_line off row) 0 buf text /\ log_hex g msg buf = Ok (msg ++ text ++ [10; 10]).
Proof. exact log_hex_lines. Qed.
Print Assumptions C102_any.

Theorem C102_quiet : forall g msg buf, l_syslog g = true \/ l_level g < 7 -> log_hex g msg buf = Ok [].
Proof. exact dump_quiet. Qed.
Print Assumptions C102_quiet.

(* 18 bytes: a full line and one with two, the latter not printable *)
Example C102_case : exists text, lines full_line full_line 0 (repeat 65 16 ++ [0; 255]) text /\
  log_hex (mklogger false 7) [71; 111; 116] (repeat 65 16 ++ [0; 255]) = Ok ([71; 111; 116] ++ text ++ [10; 10]) /\
  text = [10; 48; 48; 48; 48; 48; 48; 32] ++ concat (repeat [52; 49; 32] 16) ++ repeat 65 16 ++ [10; 48; 48; 48; 48; 49; 48; 32; 48; 48; 32; 70; 70; 32] ++ repeat 32 42 ++ [46; 46].
Proof.
  destruct (C102_partial (mklogger false 7) [71; 111; 116] (repeat 65 16 ++ [0; 255])) as (text & H1 & H2); [reflexivity | cbn; lia | repeat constructor; lia | right; cbn; lia |].
  exists text. split; [exact H1 |]. split; [exact H2 |]. vm_compute in H2. injection H2 as H2.
  apply (app_inv_tail [10; 10]). symmetry. exact H2.
Qed.

(* The characters of a last line that is full are lost: whatever the 16 bytes *)
Theorem C102_refuted : forall g msg row, l_syslog g = false -> 7 <= l_level g -> Forall (fun b => 0 <= b < 256) row -> length row = 16%nat ->
  log_hex g msg row = Ok (msg ++ left_part 0 row ++ [10; 10]) /\ ~ lines full_line full_line 0 row (left_part 0 row).
Proof. exact dump_lost. Qed.
Print Assumptions C102_refuted.
