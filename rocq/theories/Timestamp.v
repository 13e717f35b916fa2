(** Timestamps: src/utils.rs and [TimestampFormat] in src/lib.rs, with the parts
    of the chrono crate they call. *)
From Coq Require Import String ZArith List Bool Lia.
From Verif Require Import Base Ints SpecNum SpecCal.
Import ListNotations.
Open Scope Z_scope.

(** ** chrono: days since 1970-01-01 <-> proleptic Gregorian date *)

(** Calendar date of a day number.  Stands for chrono's
    [NaiveDate::from_num_days_from_ce_opt], called by [DateTime::from_timestamp]
    in src/utils.rs:6-7.  chrono uses a year-delta table over a 400-year cycle;
    here the cycle starts on 1 March and the year and month are computed
    arithmetically.  The result is proved equal to day-by-day counting. *)
Definition civil_of_days (n : Z) : date :=
  let z := n + 719468 in
  let era := z / 146097 in
  let doe := z mod 146097 in
  let yoe := (doe - doe / 1460 + doe / 36524 - doe / 146096) / 365 in
  let doy := doe - (365 * yoe + yoe / 4 - yoe / 100) in
  let mp := (5 * doy + 2) / 153 in
  let d := doy - (153 * mp + 2) / 5 + 1 in
  let m := if mp <? 10 then mp + 3 else mp - 9 in
  Date (yoe + era * 400 + (if m <=? 2 then 1 else 0)) m d.

(** Days before the first day of a month in a year. *)
Definition days_before_month (y m : Z) : Z :=
  (if m =? 1 then 0 else if m =? 2 then 31 else if m =? 3 then 59 else if m =? 4 then 90
   else if m =? 5 then 120 else if m =? 6 then 151 else if m =? 7 then 181 else if m =? 8 then 212
   else if m =? 9 then 243 else if m =? 10 then 273 else if m =? 11 then 304 else 334)
  + (if (2 <? m) && leap y then 1 else 0).

(** Day number of a calendar date; stands for chrono's
    [NaiveDate::num_days_from_ce] (reached from [timestamp()] in
    src/utils.rs:13 and src/lib.rs:285). *)
Definition days_of_civil (x : date) : Z :=
  let y := d_year x - 1 in
  365 * y + y / 4 - y / 100 + y / 400 + days_before_month (d_year x) (d_month x) + d_day x - 719163.

(** ** src/utils.rs *)

(** [epoch_to_iso], src/utils.rs:4-9.  [to_rfc3339_opts(Secs, true)] prints a
    year between 0 and 9999 with four digits and "Z" for UTC.  The argument is
    an i32, so [from_timestamp] cannot fail and the [expect] cannot panic. *)
Definition epoch_to_iso (epoch : Z) : str :=
  let x := civil_of_days (epoch / 86400) in
  let s := epoch mod 86400 in
  iso_text x (s / 3600) (s / 60 mod 60) (s mod 60).

(** A two-digit number at the front of a text (chrono scan::number(s, 2, 2)). *)
Definition scan2 (s : str) : option (Z * str) :=
  match s with
  | a :: b :: r => if digitb a && digitb b then Some (10 * (a - 48) + (b - 48), r) else None
  | _ => None
  end.

(** A four-digit number at the front of a text. *)
Definition scan4 (s : str) : option (Z * str) :=
  opt_bind (scan2 s) (fun '(a, r) =>
  opt_bind (scan2 r) (fun '(b, r') => Some (100 * a + b, r'))).

(** A given character at the front of a text. *)
Definition scan_char (c : char) (s : str) : option str :=
  match s with
  | a :: r => if a =? c then Some r else None
  | [] => None
  end.

(** Drop leading digits. *)
Fixpoint skip_digits (s : str) : str :=
  match s with
  | c :: r => if digitb c then skip_digits r else s
  | [] => []
  end.

(** Optional fraction: '.' followed by at least one digit. *)
Definition scan_fraction (s : str) : option str :=
  match s with
  | c :: r =>
      if c =? 46 then
        match r with
        | d :: _ => if digitb d then Some (skip_digits r) else None
        | [] => None
        end
      else Some s
  | [] => Some []
  end.

(** chrono's scan::timezone_offset as called by its RFC 3339 parser: 'Z', 'z',
    or a sign ('+', '-', U+2212), two digits, ':', two digits below 60. *)
Definition scan_offset (s : str) : option (Z * str) :=
  match s with
  | [] => None
  | c :: r =>
      if (c =? 90) || (c =? 122) then Some (0, r)
      else if (c =? 43) || (c =? 45) || (c =? 8722) then
        opt_bind (scan2 r) (fun '(h, r1) =>
        opt_bind (scan_char 58 r1) (fun r2 =>
        opt_bind (scan2 r2) (fun '(m, r3) =>
        if m <=? 59 then
          let v := h * 3600 + m * 60 in
          Some (if c =? 43 then v else - v, r3)
        else None)))
      else None
  end.

(** [DateTime::parse_from_rfc3339(s)] followed by [timestamp()], as used in
    src/utils.rs:12-13 and src/lib.rs:283-285.  A model of chrono's parser:
    fixed-width fields, separator T/t/space, optional fraction, offset; the
    date must exist, hour <= 23, minute <= 59, second <= 60 (a leap second
    counts as :59), |offset| below 24 h, nothing after the offset. *)
Definition parse_rfc3339 (s : str) : option Z :=
  opt_bind (scan4 s) (fun '(y, s) =>
  opt_bind (scan_char 45 s) (fun s =>
  opt_bind (scan2 s) (fun '(mo, s) =>
  opt_bind (scan_char 45 s) (fun s =>
  opt_bind (scan2 s) (fun '(d, s) =>
  match s with
  | [] => None
  | sep :: s =>
      if (sep =? 84) || (sep =? 116) || (sep =? 32) then
        opt_bind (scan2 s) (fun '(h, s) =>
        opt_bind (scan_char 58 s) (fun s =>
        opt_bind (scan2 s) (fun '(mi, s) =>
        opt_bind (scan_char 58 s) (fun s =>
        opt_bind (scan2 s) (fun '(sec, s) =>
        opt_bind (scan_fraction s) (fun s =>
        opt_bind (scan_offset s) (fun '(off, s) =>
        match s with
        | _ :: _ => None
        | [] =>
            if (1 <=? mo) && (mo <=? 12) && (1 <=? d) && (d <=? days_in_month y mo)
               && (h <=? 23) && (mi <=? 59) && (sec <=? 60)
               && (- 86400 <? off) && (off <? 86400)
            then Some (days_of_civil (Date y mo d) * 86400 + h * 3600 + mi * 60
                       + Z.min sec 59 - off)
            else None
        end)))))))
      else None
  end))))).

(** [iso_to_epoch], src/utils.rs:11-15: the i64 timestamp is cast to u32, and a
    parse error gives 0. *)
Definition iso_to_epoch (s : str) : Z :=
  match parse_rfc3339 s with
  | Some t => as_u32 t
  | None => 0
  end.

(** ** [TimestampFormat] *)

(** src/lib.rs:249-252 *)
Inductive timestamp :=
| ISOString (s : str)
| EpochNumber (t : Z).

(** src/lib.rs:255-260; the i64 is cast to i32 before formatting. *)
Definition to_iso_string (ts : timestamp) : str :=
  match ts with
  | ISOString s => s
  | EpochNumber t => epoch_to_iso (as_i32 t)
  end.

(** src/lib.rs:262-267 *)
Definition to_epoch_number (ts : timestamp) : Z :=
  match ts with
  | ISOString s => iso_to_epoch s
  | EpochNumber t => t
  end.

(** src/lib.rs:279-288 ([FromStr]); the error text is dropped. *)
Definition timestamp_from_str (s : str) : option timestamp :=
  opt_map EpochNumber (parse_rfc3339 s).

(** [str] comparison; Rust compares UTF-8 bytes, which orders texts as their
    scalar values do. *)
Fixpoint str_cmp (a b : str) : comparison :=
  match a, b with
  | [], [] => Eq
  | [], _ => Lt
  | _, [] => Gt
  | x :: a', y :: b' => match x ?= y with Eq => str_cmp a' b' | c => c end
  end.

(** src/lib.rs:296-304 ([PartialOrd]); the result is always [Some]. *)
Definition timestamp_cmp (a b : timestamp) : comparison :=
  match a, b with
  | ISOString x, ISOString y => str_cmp x y
  | EpochNumber x, EpochNumber y => x ?= y
  | _, _ => to_epoch_number a ?= to_epoch_number b
  end.

(** src/lib.rs:305-313 ([PartialEq]) *)
Definition timestamp_eqb (a b : timestamp) : bool :=
  match a, b with
  | ISOString x, ISOString y => str_eqb x y
  | EpochNumber x, EpochNumber y => x =? y
  | _, _ => to_epoch_number a =? to_epoch_number b
  end.
