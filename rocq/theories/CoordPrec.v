(** Coordinates shown with a precision, as by format!("{:.7}", lat): src/lib.rs:129-141.  Both
    Display and Debug pass the Formatter with its precision on to that of f64, which in both
    cases is core's float_to_decimal_common_exact. *)
From Coq Require Import String ZArith List Bool.
From Flocq Require Import IEEE754.BinarySingleNaN.
From Verif Require Import Base SpecNum Ints Coord.
Import ListNotations.
Open Scope Z_scope.

(** a / b rounded to the nearest integer; what is done with a tie may depend on the number
    below it in any way (core has changed its mind about this). *)
Definition round_div (tie : Z -> bool) (a b : Z) : Z :=
  let q := a / b in
  let r := a mod b in
  if 2 * r <? b then q else if b <? 2 * r then q + 1 else if tie q then q + 1 else q.
(** core::num::flt2dec::to_exact_fixed_str (trusted to round correctly): the digits of |x| with
    [n] of them after the point, as one number. *)
Definition fixed_digits (tie : Z -> bool) (n : nat) (x : f64) : Z :=
  match x with
  | B754_finite _ m e _ =>
      if 0 <=? e then Zpos m * 2 ^ e * 10 ^ Z.of_nat n
      else round_div tie (Zpos m * 10 ^ Z.of_nat n) (2 ^ (- e))
  | _ => 0
  end.
(** digits_to_dec_str with exactly [n] fraction digits: at least one digit before the point,
    no point if n is 0. *)
Definition fixed_text (n : nat) (k : Z) : str :=
  let ds := show_uint k in
  let ds' := repeat 48 (S n - length ds) ++ ds in
  firstn (length ds' - n) ds' ++ (if (n =? 0)%nat then [] else lit "." ++ skipn (length ds' - n) ds').
(** src/lib.rs:129-141 with a precision.  The sign is that of the f64, also if all digits are
    zero. *)
Definition show_prec (tie : Z -> bool) (n : nat) (i : Z) : str :=
  (if Bsign (degrees i) then lit "-" else []) ++ fixed_text n (fixed_digits tie n (degrees i)).
