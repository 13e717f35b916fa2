(** The OPL text format, specification side. *)
From Coq Require Import String ZArith List Bool.
From Verif Require Import Base Utf8.
Import ListNotations.
Open Scope Z_scope.

(** Hexadecimal digits and numbers, in both cases. *)
Definition digit_value (c : char) (d : Z) : Prop :=
  exists n, d = Z.of_nat n /\
    (nth_error (lit "0123456789abcdef") n = Some c \/ nth_error (lit "0123456789ABCDEF") n = Some c).
Inductive hex_number : str -> Z -> Prop :=
| hn_one c d : digit_value c d -> hex_number [c] d
| hn_more s v c d : hex_number s v -> digit_value c d -> hex_number (s ++ [c]) (16 * v + d).
(** What may stand between two percent signs: the number of a character, perhaps with
    a plus sign. *)
Definition escaped (b : str) (c : char) : Prop :=
  scalar c /\ (hex_number b c \/ exists b', b = chr "+" :: b' /\ hex_number b' c).

(** [text_of s t]: s is the OPL text of the string t. *)
Inductive text_of : str -> str -> Prop :=
| to_end : text_of [] []
| to_plain c s t : c <> chr "%" -> text_of s t -> text_of (c :: s) (c :: t)
| to_escape b c s t : escaped b c -> text_of s t -> text_of (lit "%" ++ b ++ lit "%" ++ s) (c :: t).

(** How the writer spells a character. *)
Definition spelling (c : char) : str :=
  if c =? chr " " then lit "%20%"
  else if c =? 10 then lit "%A%"
  else if c =? chr "," then lit "%2C%"
  else if c =? chr "=" then lit "%3D%"
  else if c =? chr "@" then lit "%40%"
  else [c].

(** The characters with the property White_Space of Unicode. *)
Definition white (c : char) : Prop :=
  In c [9; 10; 11; 12; 13; 32; 133; 160; 5760; 8192; 8193; 8194; 8195; 8196; 8197; 8198; 8199; 8200; 8201; 8202;
        8232; 8233; 8239; 8287; 12288].
