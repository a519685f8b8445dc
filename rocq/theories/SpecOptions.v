(* Vocabulary for the properties of the command line (C103). *)
From Verif Require Import Base Lib SpecLib Options.

(* The value of the last of the items that has one *)
Definition last_of {A B : Type} (f : A -> option B) (l : list A) (v : option B) : Prop :=
  (v = None /\ forall a, In a l -> f a = None) \/
  (exists pre a post b, l = pre ++ a :: post /\ f a = Some b /\ v = Some b /\ forall a', In a' post -> f a' = None).

(* A text that begins with the number v, behind blanks and with a sign perhaps *)
Inductive sign_of : list Z -> Z -> Prop := no_sign : sign_of [] 1 | plus : sign_of [43] 1 | minus : sign_of [45] (-1).
Definition begins_with_number (text : list Z) (v : Z) (rest : list Z) : Prop :=
  exists blanks sg s ds, text = blanks ++ sg ++ ds ++ rest /\ Forall (fun c => c = 32 \/ 9 <= c <= 13) blanks /\ sign_of sg s /\ is_dec ds /\
  match rest with c :: _ => ~ 48 <= c <= 57 | [] => True end /\ v = s * dec_value ds.
(* A text that does not: blanks, perhaps a sign, then no digit *)
Definition no_number (text : list Z) : Prop :=
  exists blanks sg s rest, text = blanks ++ sg ++ rest /\ Forall (fun c => c = 32 \/ 9 <= c <= 13) blanks /\ sign_of sg s /\
  match rest with c :: _ => ~ 48 <= c <= 57 /\ (sg = [] -> ~ (c = 32 \/ 9 <= c <= 13) /\ c <> 43 /\ c <> 45) | [] => True end.

(* What options say.  How numbers and levels are read: C103_number, C72 *)
Definition host_of (o : given) : option (list Z) := match o with GHost s => Some s | _ => None end.
Definition iface_of (o : given) : option (list Z) := match o with GIface s => Some s | _ => None end.
Definition ttl_of (o : given) : option Z := match o with GTtl s => Some (atoi s) | _ => None end.
Definition levels_of (os : list given) : list Z := flat_map (fun o => match o with GLevel s => [fst (mdnsd_log_level 5 s)] | _ => [] end) os.
Definition count_n (os : list given) : nat := length (filter (fun o => match o with GForeground => true | _ => false end) os).
Definition count_s (os : list given) : nat := length (filter (fun o => match o with GSyslog => true | _ => false end) os).
(* One that main() goes on after *)
Definition accepted (o : given) : Prop :=
  match o with
  | GHelp | GBad | GVersion => False
  | GLevel s => fst (mdnsd_log_level 5 s) <> -1
  | GTtl s => 1 <= atoi s <= 255
  | _ => True
  end.
(* The status main() ends with otherwise *)
Definition refusal (o : given) : Z := match o with GHelp | GBad | GVersion => 0 | _ => 1 end.
