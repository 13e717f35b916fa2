(** Specification of the Gregorian calendar and of RFC 3339 texts, independent
    of the model. *)
From Coq Require Import ZArith List Bool String.
From Verif Require Import Base SpecNum.
Import ListNotations.
Open Scope Z_scope.

Definition leap (y : Z) : bool :=
  ((y mod 4 =? 0) && negb (y mod 100 =? 0)) || (y mod 400 =? 0).

Definition days_in_month (y m : Z) : Z :=
  if m =? 2 then (if leap y then 29 else 28)
  else if (m =? 4) || (m =? 6) || (m =? 9) || (m =? 11) then 30 else 31.

Record date := Date { d_year : Z; d_month : Z; d_day : Z }.

Definition valid_date (x : date) : Prop :=
  1 <= d_month x <= 12 /\ 1 <= d_day x <= days_in_month (d_year x) (d_month x).

(** The calendar day after a given one. *)
Definition next_day (x : date) : date :=
  if d_day x <? days_in_month (d_year x) (d_month x)
  then Date (d_year x) (d_month x) (d_day x + 1)
  else if d_month x <? 12 then Date (d_year x) (d_month x + 1) 1
  else Date (d_year x + 1) 1 1.

(** [DayNumber n x]: [x] is the calendar day [n] days after (before, if
    negative) 1 January 1970, by counting day by day. *)
Inductive DayNumber : Z -> date -> Prop :=
| DN_epoch : DayNumber 0 (Date 1970 1 1)
| DN_next n x : DayNumber n x -> DayNumber (n + 1) (next_day x)
| DN_prev n x : valid_date x -> DayNumber (n + 1) (next_day x) -> DayNumber n x.

(** Two- and four-digit decimal numbers with leading zeros. *)
Definition two (n : Z) : str := [48 + n / 10; 48 + n mod 10].
Definition four (n : Z) : str := two (n / 100) ++ two (n mod 100).

(** The canonical OSM timestamp text, YYYY-MM-DDTHH:MM:SSZ. *)
Definition iso_text (x : date) (h mi s : Z) : str :=
  four (d_year x) ++ lit "-" ++ two (d_month x) ++ lit "-" ++ two (d_day x) ++ lit "T" ++
  two h ++ lit ":" ++ two mi ++ lit ":" ++ two s ++ lit "Z".

(** [CanonicalISO s t]: [s] is a canonical timestamp text, for a real calendar
    date with a four-digit year, of the instant [t] seconds after the epoch. *)
Definition CanonicalISO (s : str) (t : Z) : Prop :=
  exists n x h mi sec,
    DayNumber n x /\ valid_date x /\ 0 <= d_year x <= 9999 /\
    0 <= h <= 23 /\ 0 <= mi <= 59 /\ 0 <= sec <= 59 /\
    s = iso_text x h mi sec /\ t = n * 86400 + h * 3600 + mi * 60 + sec.

(** UTC offset texts and their value in seconds. *)
Inductive OffsetText : str -> Z -> Prop :=
| OT_Z : OffsetText (lit "Z") 0
| OT_z : OffsetText (lit "z") 0
| OT_plus h m : 0 <= h <= 23 -> 0 <= m <= 59 ->
    OffsetText (lit "+" ++ two h ++ lit ":" ++ two m) (h * 3600 + m * 60)
| OT_minus h m c : 0 <= h <= 23 -> 0 <= m <= 59 -> c = 45 \/ c = 8722 ->
    OffsetText (c :: two h ++ lit ":" ++ two m) (- (h * 3600 + m * 60)).

(** A fraction of a second: absent, or a point and at least one digit. *)
Inductive FractionText : str -> Prop :=
| FT_none : FractionText []
| FT_some ds : ds <> [] -> Forall is_digit ds -> FractionText (lit "." ++ ds).

(** [RFC3339 s t]: [s] is an RFC 3339 date-time (with the separators 'T', 't'
    or ' ') and [t] is the number of whole seconds between the epoch and it.
    A leap second :60 is counted with the second before it. *)
Definition RFC3339 (s : str) (t : Z) : Prop :=
  exists n x h mi sec sep fr off otxt,
    DayNumber n x /\ valid_date x /\ 0 <= d_year x <= 9999 /\
    0 <= h <= 23 /\ 0 <= mi <= 59 /\ 0 <= sec <= 60 /\
    (sep = 84 \/ sep = 116 \/ sep = 32) /\ FractionText fr /\ OffsetText otxt off /\
    s = four (d_year x) ++ lit "-" ++ two (d_month x) ++ lit "-" ++ two (d_day x) ++ [sep] ++
        two h ++ lit ":" ++ two mi ++ lit ":" ++ two sec ++ fr ++ otxt /\
    t = n * 86400 + h * 3600 + mi * 60 + Z.min sec 59 - off.
