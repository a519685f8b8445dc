(* Vocabulary for the properties of the configuration files. *)
From Verif Require Import Base Lib SpecLib.

(* A text file: lines, each ended by a newline; the last need not be. *)
Definition text (lines : list (list Z)) (last : list Z) : list Z := flat_map (fun l => l ++ [10]) lines ++ last.
Definition text_lines (lines : list (list Z)) (last : list Z) : list (list Z) := lines ++ match last with [] => [] | _ => [last] end.
(* A line that fits: not blank, up to 254 bytes (with its newline and the NUL it
   fits into 256), none of them a newline or 0 *)
Definition plain (l : list Z) : Prop := 1 <= zlen l <= 254 /\ ~ In 10 l /\ ~ In 0 l.

(* The value the line gives to the keyword: what follows the keyword and one
   space or tab *)
Fixpoint behind (key line : list Z) : option (list Z) :=
  match key, line with
  | [], c :: v => if (c =? 32) || (c =? 9) then Some v else None
  | k :: key, c :: line => if k =? c then behind key line else None
  | _, [] => None
  end.
Definition values (key : list Z) (lines : list (list Z)) : list (list Z) := flat_map (fun l => match behind key l with Some v => [v] | None => [] end) lines.
(* The last of them *)
Fixpoint last_of {A : Type} (l : list A) : option A := match l with [] => None | [x] => Some x | _ :: l => last_of l end.

(* Text as bytes *)
From Coq Require Import String Ascii.
Definition ascii_text (s : string) : list Z := map (fun c => Z.of_nat (nat_of_ascii c)) (list_ascii_of_string s).
Definition word_type : list Z := ascii_text "type".
Definition word_name : list Z := ascii_text "name".
Definition word_port : list Z := ascii_text "port".
Definition word_target : list Z := ascii_text "target".
Definition word_cname : list Z := ascii_text "cname".
Definition word_txt : list Z := ascii_text "txt".
