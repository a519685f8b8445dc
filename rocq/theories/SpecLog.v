(* Vocabulary for the properties of logging (C101, C102). *)
From Verif Require Import Base.

(* The level that holds after these were asked for: the last that is not negative,
   5 (notice) if there is none *)
Inductive level_holds : list Z -> Z -> Prop :=
| level_default : level_holds [] 5
| level_set : forall vs v, 0 <= v -> level_holds (vs ++ [v]) v
| level_kept : forall vs v l, v < 0 -> level_holds vs l -> level_holds (vs ++ [v]) l.

(* Digits of v in base 16, n of them *)
Definition hexdigit (upper : bool) (v : Z) : Z := nth (Z.to_nat v) (if upper then [48; 49; 50; 51; 52; 53; 54; 55; 56; 57; 65; 66; 67; 68; 69; 70] else [48; 49; 50; 51; 52; 53; 54; 55; 56; 57; 97; 98; 99; 100; 101; 102]) 0.
Fixpoint hex (upper : bool) (n : nat) (v : Z) : list Z := match n with O => [] | S n => hex upper n (v / 16) ++ [hexdigit upper (v mod 16)] end.

(* A line of a dump: the offset, the bytes, filled up to the width of 16, and the
   bytes as characters, with a dot for those that cannot be printed *)
Definition char_of (b : Z) : Z := if (32 <=? b) && (b <=? 126) then b else 46.
Definition left_part (off : Z) (row : list Z) : list Z := [10] ++ hex false 6 off ++ [32] ++ concat (map (fun b => hex true 2 b ++ [32]) row) ++ repeat 32 (3 * (16 - length row)).
Definition full_line (off : Z) (row : list Z) : list Z := left_part off row ++ map char_of row.
(* The lines of the dump of these bytes, 16 on each but the last; how a line
   looks is left open, as is how the last one does *)
Inductive lines (line last : Z -> list Z -> list Z) : Z -> list Z -> list Z -> Prop :=
| no_lines : forall off, lines line last off [] []
| last_line : forall off row, row <> [] -> (length row <= 16)%nat -> lines line last off row (last off row)
| more_lines : forall off row rest text, length row = 16%nat -> rest <> [] -> lines line last (off + 16) rest text -> lines line last off (row ++ rest) (line off row ++ text).
