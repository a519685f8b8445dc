(* Lemmas about logging, for C101 and C102. *)
From Verif Require Import Base Lib Log SpecLog.

Definition finish (r : res (Z * list Z * list Z)) : res (list Z) :=
  '(i, ascii, out) <- r;;
  ascii <- cset ascii (i mod 16) 0;;
  out <- pad_loop 17 i out;;
  a <- cstring ascii;;
  Ok (out ++ a ++ [10; 10]).

Lemma digit_hex : forall u v, 0 <= v < 16 -> digit u v = hexdigit u v.
Proof.
  intros u v H. assert (E : v = 0 \/ v = 1 \/ v = 2 \/ v = 3 \/ v = 4 \/ v = 5 \/ v = 6 \/ v = 7 \/ v = 8 \/ v = 9 \/ v = 10 \/ v = 11 \/ v = 12 \/ v = 13 \/ v = 14 \/ v = 15) by lia.
  destruct u; repeat (destruct E as [-> | E]; [reflexivity |]); subst v; reflexivity.
Qed.
Lemma hex2_hex : forall b, 0 <= b < 256 -> hex2 b = hex true 2 b ++ [32].
Proof.
  intros b H. unfold hex2. cbn [hex app]. rewrite !digit_hex by (try apply Z.mod_pos_bound; try (split; [apply Z.div_pos | apply Z.div_lt_upper_bound]); lia).
  rewrite (Z.mod_small (b / 16)) by (split; [apply Z.div_pos | apply Z.div_lt_upper_bound]; lia). reflexivity.
Qed.
Lemma hex6_hex : forall v, 0 <= v -> hex6 v = hex false 6 v ++ [32].
Proof.
  intros v H. unfold hex6. cbn [hex app]. rewrite !digit_hex by (apply Z.mod_pos_bound; lia).
  rewrite !Z.div_div by lia. reflexivity.
Qed.
Lemma is_print_char : forall b, (if is_print b then b else 46) = char_of b.
Proof. intros b. unfold is_print, char_of. replace (b <? 127) with (b <=? 126) by (destruct (b <=? 126) eqn:E; symmetry; lia). reflexivity. Qed.
Lemma char_of_pos : forall b, char_of b <> 0.
Proof. intros b. unfold char_of. destruct (_ && _) eqn:E; lia. Qed.

Lemma cstring_app : forall s t, (forall c, In c s -> c <> 0) -> cstring (s ++ 0 :: t) = Ok s.
Proof.
  induction s as [| c s IH]; intros t H; [reflexivity |]. cbn [cstring app].
  destruct (c =? 0) eqn:E; [exfalso; apply (H c); [now left | lia] |]. rewrite IH; [reflexivity |]. intros; apply H; now right.
Qed.
Lemma chars_pos : forall bs c, In c (map char_of bs) -> c <> 0.
Proof. intros bs c H. apply in_map_iff in H as (b & <- & _). apply char_of_pos. Qed.

Lemma upd_app : forall (a b : list Z) v w, upd (a ++ v :: b) (length a) w = a ++ w :: b.
Proof. induction a as [| x a IH]; intros b v w; cbn [app length upd]; [reflexivity |]. now rewrite IH. Qed.
Lemma cset_app : forall (a b : list Z) v w i, i = zlen a -> cset (a ++ v :: b) i w = Ok (a ++ w :: b).
Proof.
  intros a b v w i ->. unfold cset, zlen. rewrite app_length. cbn [length].
  destruct (_ && _) eqn:E; [| lia]. rewrite Nat2Z.id, upd_app. reflexivity.
Qed.

(* Within a row *)
Lemma in_row : forall bs rest i done later out, 0 <= i -> Forall (fun b => 0 <= b < 256) bs -> i mod 16 = zlen done -> done <> [] -> (length done + length bs <= 16)%nat -> (length done + length later = 17)%nat ->
  hex_loop (bs ++ rest) i (done ++ later) out = hex_loop rest (i + zlen bs) (done ++ map char_of bs ++ skipn (length bs) later) (out ++ concat (map (fun b => hex true 2 b ++ [32]) bs)).
Proof.
  induction bs as [| b bs IH]; intros rest i done later out Hi B M N L L'.
  - cbn [app map length skipn concat]. rewrite app_nil_r. f_equal. unfold zlen; cbn; lia.
  - inversion B as [| ? ? B1 B2]; subst. cbn [app hex_loop length] in *. destruct later as [| v later]; [cbn in L'; lia |].
    destruct (i mod 16 =? 0) eqn:E; [destruct done; [congruence |]; unfold zlen in M; cbn in M; lia |]. cbn [bind].
    rewrite is_print_char, M, cset_app by reflexivity. cbn [bind].
    replace (done ++ char_of b :: later) with ((done ++ [char_of b]) ++ later) by (rewrite <- app_assoc; reflexivity).
    destruct bs as [| b' bs'].
    + cbn [app map length skipn concat hex_loop]. rewrite !app_nil_r, <- app_assoc, hex2_hex by assumption. f_equal.
    + rewrite IH; try assumption; try lia.
      * cbn [app map skipn concat]. rewrite <- !app_assoc, hex2_hex by assumption. cbn [app]. f_equal. unfold zlen; cbn [length]; lia.
      * rewrite Z.add_mod, M by lia. unfold zlen in *. rewrite app_length. cbn [length] in *. rewrite (Z.mod_small 1) by lia. rewrite Z.mod_small by lia. lia.
      * destruct done; discriminate.
      * rewrite app_length; cbn [length] in *; lia.
      * rewrite app_length; cbn [length] in *; lia.
Qed.

(* A row from its start *)
Lemma whole_row : forall bs rest off ascii prev out, 0 <= off -> off mod 16 = 0 -> Forall (fun b => 0 <= b < 256) bs -> bs <> [] -> (length bs <= 16)%nat -> length ascii = 17%nat -> cstring ascii = Ok prev ->
  hex_loop (bs ++ rest) off ascii out = hex_loop rest (off + zlen bs) (map char_of bs ++ skipn (length bs) ascii) (out ++ prev ++ [10] ++ hex false 6 off ++ [32] ++ concat (map (fun b => hex true 2 b ++ [32]) bs)).
Proof.
  intros bs rest off ascii prev out Hi M B N L La Hp. destruct bs as [| b bs]; [congruence |]. destruct ascii as [| v ascii]; [discriminate |].
  inversion B as [| ? ? B1 B2]; subst. cbn [app hex_loop length] in *.
  rewrite M. cbn [Z.eqb]. rewrite Hp. cbn [bind]. rewrite is_print_char. rewrite (cset_app [] ascii v (char_of b) 0 eq_refl : cset (v :: ascii) 0 (char_of b) = _). cbn [app bind].
  change (char_of b :: ascii) with ([char_of b] ++ ascii). destruct bs as [| b' bs'].
  - cbn [app map length skipn concat]. rewrite hex2_hex, hex6_hex by assumption. cbn [app]. f_equal.
    rewrite <- !app_assoc. cbn [app]. rewrite <- !app_assoc. cbn [app]. rewrite ?app_nil_r. reflexivity.
  - rewrite in_row; try assumption; try lia; try discriminate.
    + cbn [app map skipn concat length]. rewrite (hex2_hex b), hex6_hex by assumption. f_equal; [unfold zlen; cbn [length]; lia |].
      repeat (rewrite <- !app_assoc; cbn [app]). reflexivity.
    + rewrite Z.add_mod, M by lia. reflexivity.
Qed.

Lemma pad_loop_eq : forall k fuel i out, (i + Z.of_nat k) mod 16 = 0 -> (k < 16)%nat -> (k < fuel)%nat -> 0 <= i -> pad_loop fuel i out = Ok (out ++ repeat 32 (3 * k)).
Proof.
  induction k as [| k IH]; intros fuel i out M L F Hi; destruct fuel as [| fuel]; try lia; cbn [pad_loop].
  - replace (i + Z.of_nat 0) with i in M by lia. rewrite M. cbn. rewrite app_nil_r. reflexivity.
  - destruct (i mod 16 =? 0) eqn:E; [exfalso; rewrite Z.add_mod in M by lia; rewrite (Z.mod_small (Z.of_nat (S k))) in M by lia; assert (i mod 16 = 0) as E' by lia; rewrite E' in M; rewrite Z.mod_small in M by lia; lia |].
    rewrite IH by (try lia; replace (i + 1 + Z.of_nat k) with (i + Z.of_nat (S k)) by lia; assumption).
    replace (3 * S k)%nat with (3 + 3 * k)%nat by lia. rewrite repeat_app, <- app_assoc. reflexivity.
Qed.

(* How the last line comes out *)
Definition as_shown (off : Z) (row : list Z) : list Z := if (length row =? 16)%nat then left_part off row else full_line off row.

Lemma skipn_last : forall (n : nat) (l : list Z), (n < length l)%nat -> exists v t, skipn n l = v :: t.
Proof. intros n l H. destruct (skipn n l) as [| v t] eqn:E; [apply (f_equal (@length Z)) in E; rewrite skipn_length in E; cbn in E; lia | eauto]. Qed.

Lemma last_row : forall off row ascii prev out, 0 <= off -> off mod 16 = 0 -> Forall (fun b => 0 <= b < 256) row -> row <> [] -> (length row <= 16)%nat -> length ascii = 17%nat -> cstring ascii = Ok prev ->
  finish (hex_loop row off ascii out) = Ok (out ++ prev ++ as_shown off row ++ [10; 10]).
Proof.
  intros off row ascii prev out Hi M B N L La Hp.
  pose proof (whole_row row [] off ascii prev out Hi M B N L La Hp) as E. rewrite app_nil_r in E. rewrite E. cbn [hex_loop]. unfold finish. cbn [bind].
  assert (Lr : (0 < length row)%nat) by (destruct row; [congruence | cbn; lia]). clear N E.
  unfold as_shown. destruct (length row =? 16)%nat eqn:E16.
  - apply Nat.eqb_eq in E16. assert (Mi : (off + zlen row) mod 16 = 0) by (unfold zlen; rewrite E16; rewrite Z.add_mod, M by lia; reflexivity).
    rewrite Mi. destruct row as [| b0 row0]; [discriminate |]. cbn [map app]. rewrite (cset_app [] (map char_of row0 ++ skipn (length (b0 :: row0)) ascii) (char_of b0) 0 0 eq_refl : cset (char_of b0 :: _) 0 0 = _). cbn [bind app].
    cbn [pad_loop]. rewrite Mi. cbn [Z.eqb bind cstring]. unfold left_part. rewrite E16. cbn [Nat.sub Nat.mul repeat]. rewrite <- !app_assoc. cbn [app map]. repeat (rewrite <- !app_assoc; cbn [app]). reflexivity.
  - apply Nat.eqb_neq in E16.
    assert (Mi : (off + zlen row) mod 16 = zlen row) by (unfold zlen; rewrite Z.add_mod, M by lia; rewrite Z.add_0_l, Z.mod_mod by lia; apply Z.mod_small; lia).
    rewrite Mi. destruct (skipn_last (length row) ascii) as (v & t & Es); [lia |]. rewrite Es.
    rewrite cset_app by (unfold zlen; now rewrite map_length). cbn [bind].
    rewrite (pad_loop_eq (16 - length row)); [cbn [bind] | | lia | lia | unfold zlen; lia].
    + rewrite cstring_app by apply chars_pos. cbn [bind]. unfold full_line, left_part. repeat (rewrite <- !app_assoc; cbn [app]). reflexivity.
    + unfold zlen. replace (off + Z.of_nat (length row) + Z.of_nat (16 - length row)) with (off + 16) by lia. rewrite Z.add_mod, M by lia. reflexivity.
Qed.

Lemma all_rows : forall n buf off ascii prev out, (length buf <= n)%nat -> 0 <= off -> off mod 16 = 0 -> Forall (fun b => 0 <= b < 256) buf -> buf <> [] -> length ascii = 17%nat -> nth 16 ascii 0 = 0 -> cstring ascii = Ok prev ->
  exists text, lines full_line as_shown off buf text /\ finish (hex_loop buf off ascii out) = Ok (out ++ prev ++ text ++ [10; 10]).
Proof.
  induction n as [| n IH]; intros buf off ascii prev out Ln Hi M B N La Lz Hp; [destruct buf; [congruence | cbn in Ln; lia] |].
  destruct (le_lt_dec (length buf) 16) as [Hs | Hl].
  - exists (as_shown off buf). split; [now constructor |]. now apply last_row.
  - set (row := firstn 16 buf). set (rest := skipn 16 buf).
    assert (Eb : buf = row ++ rest) by (symmetry; apply firstn_skipn).
    assert (Lr : length row = 16%nat) by (unfold row; rewrite firstn_length; lia).
    assert (Le : (length rest = length buf - 16)%nat) by (unfold rest; apply skipn_length).
    clearbody row rest. rewrite Eb in B. apply Forall_app in B as [B1 B2].
    assert (Nr : rest <> []) by (intros E0; rewrite E0 in Le; cbn in Le; lia).
    rewrite Eb. rewrite (whole_row row rest off ascii prev out) by (try assumption; try lia; intros E0; rewrite E0 in Lr; discriminate).
    rewrite Lr. unfold zlen at 1. rewrite Lr. change (Z.of_nat 16) with 16.
    assert (Es : skipn 16 ascii = [0]).
    { do 17 (destruct ascii as [| ? ascii]; [discriminate |]). destruct ascii; [| discriminate]. cbn in Lz. subst. reflexivity. }
    rewrite Es.
    destruct (IH rest (off + 16) (map char_of row ++ [0]) (map char_of row) (out ++ prev ++ [10] ++ hex false 6 off ++ [32] ++ concat (map (fun b => hex true 2 b ++ [32]) row))) as (text & Ht & Hf); try assumption; try lia.
    + rewrite app_length, map_length, Lr. reflexivity.
    + rewrite app_nth2; rewrite map_length, Lr; [reflexivity | lia].
    + apply cstring_app, chars_pos.
    + exists (full_line off row ++ text). split; [now constructor |]. rewrite Hf. unfold full_line, left_part. rewrite Lr. cbn [Nat.sub Nat.mul repeat].
      repeat (rewrite <- !app_assoc; cbn [app]). reflexivity.
Qed.

Lemma log_hex_lines : forall g msg buf, l_syslog g = false -> 7 <= l_level g -> Forall (fun b => 0 <= b < 256) buf ->
  exists text, lines full_line as_shown 0 buf text /\ log_hex g msg buf = Ok (msg ++ text ++ [10; 10]).
Proof.
  intros g msg buf Hs Hl B. unfold log_hex. rewrite Hs. destruct (l_level g <? 7) eqn:E; [lia |].
  destruct buf as [| b buf'] eqn:Eb.
  - exists []. split; [constructor |]. reflexivity.
  - rewrite <- Eb in *. destruct (all_rows (length buf) buf 0 (repeat 0 17) [] msg) as (text & Ht & Hf); try assumption; try lia; try reflexivity; [rewrite Eb; discriminate |].
    exists text. split; [exact Ht |]. unfold finish in Hf. exact Hf.
Qed.

Lemma lines_full : forall off buf text, lines full_line as_shown off buf text -> (buf = [] \/ (length buf mod 16 <> 0)%nat) -> lines full_line full_line off buf text.
Proof.
  intros off buf text H. induction H as [off | off row N L | off row rest text Lr Nr H IH]; intros K.
  - constructor.
  - destruct K as [K | K]; [congruence |]. unfold as_shown. destruct (length row =? 16)%nat eqn:E; [apply Nat.eqb_eq in E; rewrite E in K; cbn in K; lia | now constructor].
  - constructor; try assumption. apply IH. right. destruct K as [K | K]; [apply app_eq_nil in K as [_ K]; congruence |].
    rewrite app_length, Lr in K. intros K'. apply K. rewrite Nat.add_comm. change 16%nat with (1 * 16)%nat at 1. rewrite Nat.mod_add by lia. exact K'.
Qed.

(* The filter *)
Lemma bits_upto : forall l s, 0 <= l < 30 -> 0 <= s -> Z.testbit (2 ^ (l + 1) - 1) s = (s <=? l).
Proof.
  intros l s L S. replace (2 ^ (l + 1) - 1) with (Z.ones (l + 1)) by (rewrite Z.ones_equiv; lia).
  destruct (s <=? l) eqn:E; [apply Z.ones_spec_low; lia | apply Z.ones_spec_high; lia].
Qed.

Lemma log_value : forall l l' s, fst (mdnsd_log_level l s) = fst (mdnsd_log_level l' s).
Proof. reflexivity. Qed.
Lemma log_new_level : forall l s, snd (mdnsd_log_level l s) = if 0 <=? fst (mdnsd_log_level 5 s) then fst (mdnsd_log_level 5 s) else l.
Proof. reflexivity. Qed.
Lemma log_calls_snoc : forall cs c, log_calls (cs ++ [c]) = log_call (log_calls cs) c.
Proof. intros. unfold log_calls. apply fold_left_app. Qed.

(* What is true after any calls with levels below 30 *)
Lemma calls_inv : forall cs, Forall (fun v => v < 30) (concat (map level_asked cs)) ->
  level_holds (concat (map level_asked cs)) (l_level (fst (log_calls cs))) /\ 0 <= l_level (fst (log_calls cs)) < 30 /\
  (l_syslog (fst (log_calls cs)) = true <-> In COpen cs) /\ (l_syslog (fst (log_calls cs)) = true -> snd (log_calls cs) = Some (2 ^ (l_level (fst (log_calls cs)) + 1) - 1)) /\ (exists m, snd (log_calls cs) = Some m).
Proof.
  intros cs. induction cs as [| c cs IH] using rev_ind; intros F.
  - cbn. split; [constructor |]. split; [lia |]. split; [split; [discriminate | tauto] |]. split; [discriminate | eauto].
  - rewrite map_app, concat_app in *. apply Forall_app in F as [F1 F2]. specialize (IH F1). cbn [map concat] in *. rewrite app_nil_r in *.
    rewrite log_calls_snoc. destruct (log_calls cs) as [[sl lv] m]. cbn [fst snd l_level l_syslog] in *. destruct IH as (A & B & C & D & (m0 & ->)).
    assert (U : forall v, 0 <= v < 30 -> set_mask v = SetMask (2 ^ (v + 1) - 1)) by (intros v Hv; unfold set_mask, log_upto; destruct (_ && _) eqn:E; [reflexivity | lia]).
    destruct c as [s |].
    + cbn [log_call]. unfold log_level. cbn [fst snd l_level l_syslog]. pose proof (log_new_level lv s) as N. destruct (mdnsd_log_level lv s) as [v nl] eqn:Ev.
      assert (Fv : fst (mdnsd_log_level 5 s) = v) by (rewrite (log_value 5 lv), Ev; reflexivity). cbn [level_asked snd] in *. rewrite Fv in *. inversion F2; subst.
      cbn [fst snd l_level l_syslog apply_mask].
      assert (R : 0 <= (if 0 <=? fst (mdnsd_log_level 5 s) then fst (mdnsd_log_level 5 s) else lv) < 30) by (destruct (0 <=? _) eqn:E; lia).
      set (v := fst (mdnsd_log_level 5 s)) in *. clearbody v. set (n := if 0 <=? v then v else lv) in *.
      split; [unfold n; destruct (0 <=? v) eqn:E; [apply level_set; lia | apply level_kept; [lia | exact A]] |]. split; [exact R |].
      split; [rewrite in_app_iff; cbn; split; [intros; left; now apply C | intros [? | [? | []]]; [now apply C | discriminate]] |].
      destruct sl; [rewrite U by exact R; cbn [apply_mask]; split; eauto | split; [discriminate | exists m0; reflexivity]].
    + cbn [log_call level_asked] in *. unfold log_open. cbn [fst snd l_level l_syslog]. rewrite app_nil_r. rewrite U by exact B. cbn [fst snd l_level l_syslog apply_mask].
      split; [exact A |]. split; [exact B |]. split; [split; [intros; apply in_or_app; right; now left | reflexivity] |]. split; eauto.
Qed.

Lemma level_holds_fun : forall vs l, level_holds vs l -> forall l', level_holds vs l' -> l = l'.
Proof.
  intros vs l H. induction H as [| vs v Hv | vs v l Hv H IH]; intros l' H'; inversion H'; subst;
  repeat match goal with E : ?a ++ [_] = [] |- _ => destruct a; discriminate E | E : [] = ?a ++ [_] |- _ => destruct a; discriminate E | E : _ ++ [_] = _ ++ [_] |- _ => apply app_inj_tail in E as [? ?]; subst end; try lia; auto.
Qed.

Lemma seen : forall cs l sev, Forall (fun v => v < 30) (concat (map level_asked cs)) -> level_holds (concat (map level_asked cs)) l -> 0 <= sev <= 7 ->
  log_seen (log_calls cs) sev = if (l =? 16) || (l <? sev) then Nothing else if existsb (fun c => match c with COpen => true | _ => false end) cs then Syslog else if sev <=? 4 then Stderr else Stdout.
Proof.
  intros cs l sev F L S. destruct (calls_inv cs F) as (A & B & C & D & (m & M)). rewrite (level_holds_fun _ _ L _ A). unfold log_seen, log_to.
  assert (O : existsb (fun c => match c with COpen => true | _ => false end) cs = l_syslog (fst (log_calls cs))).
  { destruct (l_syslog (fst (log_calls cs))) eqn:E; [apply existsb_exists; exists COpen; split; [now apply C | reflexivity] |].
    apply not_true_iff_false. intros H. apply existsb_exists in H as ([] & H1 & H2); [discriminate |]. apply C in H1. congruence. }
  rewrite O. set (g := fst (log_calls cs)) in *. unfold LOG_NONE. destruct (l_level g =? 16) eqn:E16; [reflexivity |]. cbn [orb].
  destruct (l_syslog g) eqn:Es.
  - rewrite (D eq_refl), bits_upto by lia. rewrite Z.ltb_antisym. destruct (sev <=? l_level g); reflexivity.
  - rewrite (Z.ltb_antisym sev (l_level g)), (Z.ltb_antisym sev 4). destruct (sev <=? l_level g); [| reflexivity]. cbn [negb]. destruct (sev <=? 4); reflexivity.
Qed.

From Verif Require Import SpecLib FactsLib.
Lemma dump_full : forall g msg buf, l_syslog g = false -> 7 <= l_level g -> Forall (fun b => 0 <= b < 256) buf -> (buf = [] \/ (length buf mod 16 <> 0)%nat) ->
  exists text, lines full_line full_line 0 buf text /\ log_hex g msg buf = Ok (msg ++ text ++ [10; 10]).
Proof. intros g msg buf A B C D. destruct (log_hex_lines g msg buf A B C) as (text & H & K). exists text. split; [now apply lines_full | exact K]. Qed.
Lemma dump_quiet : forall g msg buf, l_syslog g = true \/ l_level g < 7 -> log_hex g msg buf = Ok [].
Proof. intros g msg buf [H | H]; unfold log_hex; [rewrite H; reflexivity |]. destruct (l_syslog g); [reflexivity |]. destruct (l_level g <? 7) eqn:E; [reflexivity | lia]. Qed.
Lemma lines_long : forall f line off buf text, (forall o r, (length (line o r) = f (length r))%nat) -> (length buf <= 16)%nat -> buf <> [] -> lines line line off buf text -> (length text = f (length buf))%nat.
Proof.
  intros f line off buf text Hf L N H. inversion H as [| ? row Nr Lr E1 | ? row rest ? Lr Nr H' E1]; subst; [congruence | apply Hf |].
  rewrite app_length in L. destruct rest; [congruence | cbn in L; lia].
Qed.
Lemma hex_length : forall u n v, length (hex u n v) = n.
Proof. induction n as [| n IH]; intros v; [reflexivity |]. cbn [hex]. rewrite app_length, IH. cbn. lia. Qed.
Lemma concat_length : forall row, (length (concat (map (fun b => hex true 2%nat b ++ [32%Z]) row)) = 3 * length row)%nat.
Proof. induction row as [| b row IH]; [reflexivity |]. cbn [map concat]. rewrite !app_length, IH, hex_length. cbn [length]. lia. Qed.
Lemma left_length : forall off row, (length (left_part off row) = 8 + 3 * length row + 3 * (16 - length row))%nat.
Proof. intros. unfold left_part. rewrite !app_length, concat_length, repeat_length, hex_length. cbn [length]. lia. Qed.
Lemma dump_lost : forall g msg row, l_syslog g = false -> 7 <= l_level g -> Forall (fun b => 0 <= b < 256) row -> length row = 16%nat ->
  log_hex g msg row = Ok (msg ++ left_part 0 row ++ [10; 10]) /\ ~ lines full_line full_line 0 row (left_part 0 row).
Proof.
  intros g msg row A B C L. assert (N : row <> []) by (intros ->; discriminate). split.
  - destruct (log_hex_lines g msg row A B C) as (text & H & K). rewrite K. inversion H as [| ? r Nr Lr E1 | ? r rest ? Lr Nr H' E1]; subst; [congruence | |].
    + unfold as_shown. rewrite L. reflexivity.
    + rewrite app_length in L. destruct rest; [congruence | cbn in L; lia].
  - intros H. apply (lines_long (fun n => 8 + 3 * n + 3 * (16 - n) + n)%nat) in H; try assumption; try lia.
    + rewrite left_length, L in H. cbn in H. lia.
    + intros o r. unfold full_line. rewrite app_length, map_length, left_length. reflexivity.
Qed.
Lemma big_level : forall ds, is_dec ds -> 30 <= dec_value ds < 2 ^ 31 -> fst (mdnsd_log_level 5 ds) = dec_value ds /\ snd (log_open (fst (log_calls [CLevel ds]))) = Undefined.
Proof.
  intros ds H B. unfold log_calls. cbn [fold_left log_call]. unfold log_level. cbn [fst l_level]. change (l_level log_new) with 5. rewrite level_number by (assumption || lia). cbn [fst snd log_open l_level].
  split; [reflexivity |]. unfold set_mask, log_upto. destruct (_ && _) eqn:E; [lia | reflexivity].
Qed.
Lemma none_dumps : exists none, level_word none 16 /\ forall msg buf, Forall (fun b => 0 <= b < 256) buf ->
  exists text, lines full_line as_shown 0 buf text /\ log_hex (fst (log_calls [CLevel none])) msg buf = Ok (msg ++ text ++ [10; 10]).
Proof.
  exists [110; 111; 110; 101]. split; [unfold level_word; cbn; tauto |]. intros msg buf B. apply log_hex_lines; [reflexivity | | exact B].
  vm_compute. discriminate.
Qed.
