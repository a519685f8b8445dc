(* The properties of the command line (C103). *)
From Verif Require Import Base Lib SpecLib Log SpecLog FactsLog Options SpecOptions FactsOptions.

(* C103: mdnsd starts exactly if all options are acceptable, otherwise the first that
   is not says with what status it ends.  If it starts, the last host name, interface, TTL and level
   given hold; the TTL is 255 unless given, and always between 1 and 255; it runs in the
   background unless -n is given; the services are read from the first operand or
   from /etc/mdns.d; syslog is used if -n is not given more often than -s. *)
Theorem C103_exits : forall os ops code, read_options os ops = Exits code <-> exists pre o post, os = pre ++ o :: post /\ Forall accepted pre /\ ~ accepted o /\ code = refusal o.
Proof. exact options_iff. Qed.
Print Assumptions C103_exits.

(* Without an operand the services are read from "/etc/mdns.d" *)
Theorem C103_started : forall os ops c, read_options os ops = Going c ->
  Forall accepted os /\ last_of host_of os (c_host c) /\ last_of iface_of os (c_iface c) /\ c_path c = hd [47; 101; 116; 99; 47; 109; 100; 110; 115; 46; 100] ops /\ c_background c = (count_n os =? 0)%nat /\
  (exists v, last_of ttl_of os v /\ c_ttl c = match v with Some t => t | None => 255 end) /\ level_holds (levels_of os) (l_level (c_log c)) /\
  (l_syslog (c_log c) = true <-> (count_n os < 1 + count_s os)%nat) /\ 1 <= c_ttl c <= 255.
Proof. exact options_started. Qed.
Print Assumptions C103_started.

(* How a number is read *)
Theorem C103_number : forall text v rest, begins_with_number text v rest -> - 2 ^ 31 <= v < 2 ^ 31 -> atoi text = v.
Proof. exact atoi_number. Qed.
Print Assumptions C103_number.
Theorem C103_no_number : forall text, no_number text -> atoi text = 0.
Proof. exact atoi_none. Qed.
Print Assumptions C103_no_number.

Theorem C103_level : forall old text v rest, begins_with_number text v rest -> - 2 ^ 31 <= v < 2 ^ 31 -> mdnsd_log_level old text = (v, if 0 <=? v then v else old).
Proof. exact level_text. Qed.
Print Assumptions C103_level.

(* The name messages are marked with: argv[0] without directories *)
Theorem C103_name : forall a, ~ In 47 (progname a) /\ (progname a = a \/ exists dir, a = dir ++ [47] ++ progname a).
Proof. exact progname_spec. Qed.
Print Assumptions C103_name.

(* -n -t 3 -H a -t " +64" -H b /x *)
Example C103_case : exists c, read_options [GForeground; GTtl [51]; GHost [97]; GTtl [32; 43; 54; 52]; GHost [98]] [[47; 120]] = Going c /\
  c_ttl c = 64 /\ c_host c = Some [98] /\ c_background c = false /\ l_syslog (c_log c) = false /\ l_level (c_log c) = 5 /\ c_path c = [47; 120] /\
  begins_with_number [32; 43; 54; 52] 64 [] /\ no_number [43; 120] /\ progname [47; 98; 47; 109] = [109].
Proof.
  eexists. split; [vm_compute; reflexivity |]. repeat (split; [reflexivity |]). split; [| split; [| reflexivity]].
  - exists [32], [43], 1, [54; 52]. repeat split; try (repeat constructor; lia); discriminate.
  - exists [], [43], 1, [120]. split; [reflexivity |]. split; [constructor |]. split; [constructor |]. split; [lia | discriminate].
Qed.
Example C103_case_refused : read_options [GForeground; GTtl [48]; GHelp] [] = Exits 1.
Proof. reflexivity. Qed.

(* The help text says the TTL is 1 unless given *)
Theorem C103_refuted_ttl : exists c, read_options [] [] = Going c /\ c_ttl c = 255.
Proof. eexists. split; reflexivity. Qed.
Print Assumptions C103_refuted_ttl.

(* What follows the number is ignored, so wrong arguments are taken *)
Theorem C103_refuted_text : forall ds rest, is_dec ds -> 1 <= dec_value ds <= 255 -> match rest with c :: _ => ~ 48 <= c <= 57 | [] => True end ->
  exists c, read_options [GTtl (ds ++ rest)] [] = Going c /\ c_ttl c = dec_value ds.
Proof. exact ttl_text. Qed.
Print Assumptions C103_refuted_text.

(* A negative level other than -1 is neither refused nor followed *)
Theorem C103_refuted_level : forall text v rest, begins_with_number text v rest -> - 2 ^ 31 <= v < -1 ->
  exists c, read_options [GLevel text] [] = Going c /\ l_level (c_log c) = 5.
Proof. exact negative_level. Qed.
Print Assumptions C103_refuted_level.

(* An option that is not known ends mdnsd as if all was well *)
Theorem C103_refuted_status : read_options [GBad] [] = Exits 0.
Proof. reflexivity. Qed.
Print Assumptions C103_refuted_status.

(* -s is to use syslog "even if running in foreground", but -n given twice outdoes it *)
Theorem C103_refuted_syslog : exists c, read_options [GForeground; GForeground; GSyslog] [] = Going c /\ l_syslog (c_log c) = false.
Proof. eexists. split; reflexivity. Qed.
Print Assumptions C103_refuted_syslog.
