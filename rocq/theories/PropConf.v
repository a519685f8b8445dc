(* Properties of reading the configuration: .service files and the host name. *)
From Coq Require Import String.
From Verif Require Import Base Lib SpecLib Conf SpecConf FactsConf.

(* C57 Reading any line, whatever it holds, stays inside the line buffer, unless
   the line is blank. *)
Theorem C57_line_partial : forall line str s, holds_string line str -> (str = [] \/ exists c, In c str /\ c <> 10) ->
  exists line' s', read_line line s = Ok (line', s') /\ zlen line' = zlen line.
Proof. exact line_safe. Qed.
Print Assumptions C57_line_partial.
(* Any file of any bytes whose lines are not blank, nor of a length that makes
   the newline come alone, is read inside the buffer, however long its lines. *)
Theorem C57_file_partial : forall line lines last s, zlen line = 256 -> Forall (fun l => ~ In 10 l /\ zlen l mod 255 <> 0) lines -> ~ In 10 last ->
  exists s', parse line (text lines last) s = Ok s'.
Proof. exact file_safe. Qed.
Print Assumptions C57_file_partial.
(* Every other file makes it read the byte before the buffer. *)
Theorem C57_refuted : forall line before l after s, zlen line = 256 -> Forall (fun l => ~ In 10 l /\ zlen l mod 255 <> 0) before -> ~ In 10 l -> zlen l mod 255 = 0 ->
  parse line (text before (l ++ 10 :: after)) s = UB (OobRead (-1)).
Proof. exact file_blank. Qed.
Print Assumptions C57_refuted.

(* A file as one would write it, with a comment, a repeated keyword and no
   newline at its end *)
Definition service : list (list Z) := [ascii_text "# a printer"; ascii_text "type _ipp._tcp"; ascii_text "port 80"; ascii_text "port	631"; ascii_text "txt rp=lp"; ascii_text "nonsense"].
Definition service_end : list Z := ascii_text "txt note=at the door".
Definition junk : list Z := repeat 204 (Z.to_nat 256).
Example C57_case : Forall (fun l => ~ In 10 l /\ zlen l mod 255 <> 0) service /\ ~ In 10 service_end /\ zlen junk = 256 /\
  parse junk (text service service_end) srec_zero = Ok (mksrec (Some (ascii_text "_ipp._tcp")) None 631 None None [ascii_text "rp=lp"; ascii_text "note=at the door"]).
Proof.
  split; [|split; [|split; vm_compute; reflexivity]].
  - repeat constructor; try (vm_compute; discriminate); vm_compute; intros K; repeat (destruct K as [K|K]; [discriminate K|]); exact K.
  - vm_compute. intros K. repeat (destruct K as [K|K]; [discriminate K|]). exact K.
Qed.
(* The same with an empty line between *)
Example C57_blank : parse junk (text [ascii_text "type _ipp._tcp"; []; ascii_text "port 631"] []) srec_zero = UB (OobRead (-1)).
Proof. vm_compute. reflexivity. Qed.

(* C58 For every host name and counter the buffer keeps its size and holds a
   string: the host name, cut to 254 bytes, and from the second counter on, cut
   to what leaves room for it, followed by '-' and the counter in decimal. *)
Theorem C58_form : forall buf hostnm h hostid, zlen buf = 255 -> holds_string hostnm h -> hostid < 2 ^ 31 ->
  exists buf' n, conf_hostname buf hostnm hostid = Ok buf' /\ zlen buf' = 255 /\ holds_string buf' n /\
  (hostid <= 1 -> n = firstn 254 h) /\
  (1 < hostid -> exists ds, n = firstn (Z.to_nat (254 - zlen (45 :: ds))) h ++ 45 :: ds /\ is_dec ds /\ dec_value ds = hostid /\ hd 0 ds <> 48).
Proof. exact hostname_form. Qed.
Print Assumptions C58_form.
(* The names for any two counters differ, for host names of up to 243 bytes. *)
Theorem C58_differs : forall buf hostnm h i j bi bj ni nj, zlen buf = 255 -> holds_string hostnm h -> 1 <= i < 2 ^ 31 -> 1 <= j < 2 ^ 31 -> i <> j -> zlen h <= 243 ->
  conf_hostname buf hostnm i = Ok bi -> conf_hostname buf hostnm j = Ok bj -> holds_string bi ni -> holds_string bj nj -> ni <> nj.
Proof. exact hostname_differs. Qed.
Print Assumptions C58_differs.
Definition blank : list Z := repeat 0 (Z.to_nat 255).
Example C58_case : exists b, conf_hostname blank (ascii_text "default" ++ [0]) 12 = Ok b /\ holds_string b (ascii_text "default-12") /\ holds_string (ascii_text "default" ++ [0]) (ascii_text "default").
Proof.
  eexists. split; [vm_compute; reflexivity|]. split; split.
  1,3: vm_compute; intros K; repeat (destruct K as [K|K]; [discriminate K|]); exact K.
  - eexists. vm_compute. reflexivity.
  - exists []. reflexivity.
Qed.
(* Without the limit they may be the same: 252 bytes and "-2". *)
Definition long_host : list Z := repeat 97 (Z.to_nat 252) ++ [45; 50].
Theorem C58_refuted_long : conf_hostname blank (long_host ++ [0]) 1 = conf_hostname blank (long_host ++ [0]) 2.
Proof. vm_compute. reflexivity. Qed.
Print Assumptions C58_refuted_long.

(* C59 For every file of lines of up to 254 bytes, without blank lines: the value
   of each keyword is what its last line says, 0 or none without one; of the txt
   lines the first 42 are kept, in order; other lines make no difference. *)
Theorem C59_keywords : forall line lines last, zlen line = 256 -> Forall plain lines -> last = [] \/ plain last ->
  exists s, parse line (text lines last) srec_zero = Ok s /\
  let ls := text_lines lines last in
  s_type s = last_of (values word_type ls) /\ s_name s = last_of (values word_name ls) /\ s_target s = last_of (values word_target ls) /\ s_cname s = last_of (values word_cname ls) /\
  s_txt s = firstn 42 (values word_txt ls) /\
  (values word_port ls = [] -> s_port s = 0) /\
  (forall v, last_of (values word_port ls) = Some v -> is_dec v -> dec_value v < 2 ^ 31 -> s_port s = dec_value v).
Proof. exact file_keywords. Qed.
Print Assumptions C59_keywords.
Example C59_case : Forall plain service /\ plain service_end /\ values word_port (text_lines service service_end) = [ascii_text "80"; ascii_text "631"] /\
  last_of (values word_type (text_lines service service_end)) = Some (ascii_text "_ipp._tcp").
Proof.
  split; [|split; [|split; reflexivity]].
  - repeat constructor; try (vm_compute; discriminate); vm_compute; intros K; repeat (destruct K as [K|K]; [discriminate K|]); exact K.
  - repeat constructor; try (vm_compute; discriminate); vm_compute; intros K; repeat (destruct K as [K|K]; [discriminate K|]); exact K.
Qed.
(* A port that is no number still replaces the one before *)
Theorem C59_refuted_port : exists lines, Forall plain lines /\ values word_port lines = [ascii_text "631"; ascii_text "lpr"] /\
  parse junk (text lines []) srec_zero = Ok (mksrec None None 0 None None []).
Proof.
  exists [ascii_text "port 631"; ascii_text "port lpr"]. split; [|split; [reflexivity|vm_compute; reflexivity]].
  repeat constructor; try (vm_compute; discriminate); vm_compute; intros K; repeat (destruct K as [K|K]; [discriminate K|]); exact K.
Qed.
Print Assumptions C59_refuted_port.
