(* Property theorems C11-C16 and C65: hashes, the key/value table and TXT data.
   Specifications: SpecMap.v, SpecTxt.v and xop_effect in XhtProofs.v.
   Models: Hash.v, Xht.v, SdTxt.v. *)
From Coq Require Import Permutation.
From Verif Require Import Base SpecDns SpecMap SpecTxt Hash HashProofs Xht XhtProofs SdTxt SdTxtProofs.

(* ---- C11 ---- *)
Theorem C11_bucket : forall s prime, 0 < prime -> 0 <= bucket_index s prime < prime.
Proof. exact bucket_index_range. Qed.
Print Assumptions C11_bucket.

Example C11_case : bucket_index (repeat 255 40) LPRIME = 159 /\ 0 <= bucket_index (repeat 255 40) LPRIME < LPRIME.
Proof. split; [vm_compute; reflexivity|apply C11_bucket; reflexivity]. Qed.

(* ---- C12 ---- *)
(* xop_effect, the meaning of one call on a finite map: xht_set stores or
   clears; xht_store stores the given bytes of the value under the string made
   of the given bytes of the key, unless one is missing. *)
Theorem C12_map : forall prime ops k, 0 < prime ->
  xht_get (xht_run prime ops) k = fold_left xop_effect ops fm_empty k.
Proof. exact run_get. Qed.
Print Assumptions C12_map.

(* Three keys in one bucket, one cleared and its node reused. *)
Example C12_case :
  let ops := [XSet [97] (Some [1]); XSet [98] (Some [2]); XSet [97] None; XStore [99; 100] 1 (Some [3; 4]) 2] in
  map (xht_get (xht_run 1 ops)) [[97]; [98]; [99]; [99; 100]] = [None; Some [2]; Some [3; 4]; None].
Proof. intros ops. cbn [map]. rewrite !C12_map by reflexivity. reflexivity. Qed.

(* ---- C13 ---- *)
Theorem C13_walk : forall prime ops, 0 < prime ->
  NoDup (map fst (xht_walk (xht_run prime ops))) /\
  forall k v, In (k, v) (xht_walk (xht_run prime ops)) <-> fold_left xop_effect ops fm_empty k = Some v.
Proof. exact run_walk. Qed.
Print Assumptions C13_walk.

Example C13_case :
  xht_walk (xht_run 3 [XSet [97] (Some [1]); XSet [98] (Some [2]); XSet [97] None; XSet [100] (Some [3])]) = [([100], [3]); ([98], [2])].
Proof. vm_compute. reflexivity. Qed.

(* ---- C14 ---- *)
(* The len l bytes given may be followed by anything or by nothing; a read
   outside them would be an OobRead when they are followed by nothing. *)
Theorem C14_decode : forall l rest, bytes l ->
  exists strs h, strings_of l strs /\ txt2sd (l ++ rest) (zlen l) = Ok h /\ forall k, get_opt h k = attrs strs k.
Proof. exact txt2sd_spec. Qed.
Print Assumptions C14_decode.

(* A string whose length byte lies, after two good ones. *)
Example C14_case : exists h, txt2sd [3; 97; 61; 98; 1; 99; 200; 100] 8 = Ok h /\ get_opt h [97] = Some [98] /\ get_opt h [99] = Some [].
Proof. eexists. split; [vm_compute; reflexivity|]. split; reflexivity. Qed.

(* ---- C15 ---- *)
(* txt_pair: the key is not empty and has no '=' or NUL, the value has no NUL
   and the string for them has at most 255 bytes. *)
Theorem C15_roundtrip : forall prime ops, 0 < prime ->
  let h := xht_run prime ops in
  (forall k v, xht_get h k = Some v -> txt_pair k v) ->
  exists d h', sd2txt h = Ok d /\ txt2sd d (zlen d) = Ok h' /\ forall k, get_opt h' k = xht_get h k.
Proof. exact run_roundtrip. Qed.
Print Assumptions C15_roundtrip.

Definition case15 : xht := xht_run 11 [XSet [97] (Some [98; 61; 99]); XSet [100; 101] (Some [])].
Example C15_case :
  sd2txt case15 = Ok [2; 100; 101; 5; 97; 61; 98; 61; 99] /\
  exists d h', sd2txt case15 = Ok d /\ txt2sd d (zlen d) = Ok h' /\ forall k, get_opt h' k = xht_get case15 k.
Proof.
  split; [vm_compute; reflexivity|]. apply C15_roundtrip; [reflexivity|]. fold case15. intros k v H.
  apply walk_get in H; [|apply run_ok; reflexivity]. replace (xht_walk case15) with [([100; 101], []); ([97], [98; 61; 99])] in H by reflexivity.
  cbn [In] in H. destruct H as [H|[H|[]]]; injection H as <- <-; unfold txt_pair, bytes; cbn [In]; repeat split; try discriminate; try (repeat constructor; unfold is_byte; lia); lia.
Qed.

(* Without the limit of 255 bytes the contents are lost: the length byte wraps. *)
Theorem C15_refuted_long :
  let h := xht_run 11 [XSet [97] (Some (repeat 98 300))] in
  exists d h', sd2txt h = Ok d /\ txt2sd d (zlen d) = Ok h' /\ get_opt h' [97] <> xht_get h [97].
Proof. exact roundtrip_long. Qed.
Print Assumptions C15_refuted_long.

(* ---- C16 ---- *)
(* Unwritten bytes of the allocation would be -1 and a write past it would be
   an OobWrite; the length returned is zlen d. *)
Theorem C16_encode : forall prime ops, 0 < prime ->
  let h := xht_run prime ops in
  exists d pairs, sd2txt h = Ok d /\
    NoDup (map fst pairs) /\ (forall k v, In (k, v) pairs <-> xht_get h k = Some v) /\
    (pairs = [] -> d = [0]) /\
    (pairs <> [] -> d = flat_map (fun kv => let s := attr_string (fst kv) (until 0 (snd kv)) in zlen s mod 256 :: s) pairs) /\
    (pairs <> [] -> Forall (fun kv => zlen (attr_string (fst kv) (until 0 (snd kv))) <= 255) pairs ->
       d = txt_data (map (fun kv => attr_string (fst kv) (until 0 (snd kv))) pairs)).
Proof. exact run_encode. Qed.
Print Assumptions C16_encode.

Example C16_case : sd2txt (xht_run 11 [XSet [97] (Some [98]); XSet [99] (Some [])]) = Ok [1; 99; 3; 97; 61; 98].
Proof. vm_compute. reflexivity. Qed.

(* ---- C65 ---- *)
(* Allocation number n is the n-th effective xht_store.  Those freed while
   being replaced and those freed by xht_free are together each exactly one. *)
Theorem C65_free : forall prime ops, 0 < prime ->
  Permutation (x_freed (xht_run prime ops) ++ xht_free (xht_run prime ops)) (seq 0 (length (filter is_store ops))).
Proof. exact run_free. Qed.
Print Assumptions C65_free.

Example C65_case :
  let h := xht_run 1 [XStore [97] 1 (Some [1]) 1; XStore [98] 1 (Some [2]) 1; XStore [97] 1 (Some [3]) 1; XSet [98] None] in
  x_freed h = [0; 1]%nat /\ xht_free h = [2]%nat.
Proof. split; reflexivity. Qed.
