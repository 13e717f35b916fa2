(** The Debug form of coordinates: src/lib.rs:136-141. *)
From Coq Require Import String ZArith List Bool Lia.
From Verif Require Import Base SpecNum Ints Coord.
Import ListNotations.
Open Scope Z_scope.

(** c * 10^e as digits with an exponent (core::num::fmt digits_to_exp_str, lower
    case, no minimum number of digits): one digit, the others after a point if
    there are any, [e] and the exponent of the first digit. *)
Definition exponential (c e : Z) : str :=
  match show_uint c with
  | [] => []
  | d :: r =>
      d :: (match r with [] => [] | _ => lit "." ++ r end) ++ lit "e" ++ show_int (e + Z.of_nat (length r))
  end.

(** Positional notation with at least one fraction digit (digits_to_dec_str
    called with 1). *)
Definition positional1 (c e : Z) : str :=
  if 0 <=? e then positional c e ++ lit ".0" else positional c e.

(** src/lib.rs:136-141 Debug: shows the f64 [degrees i] as core's
    float_to_general_debug does: zero as 0.0, numbers below 1e-4 (here
    |i| < 1000) with an exponent, others in positional notation with at least one
    fraction digit.  The branch for numbers from 1e16 on is never taken.
    PropsCoordDebug.v proves that the digits are the shortest ones and that
    |i| < 1000 is the comparison of the f64 with 1e-4.  A precision
    ({:.3?}) is in CoordPrec.v; width and sign options are not modelled. *)
Definition debug_coord (i : Z) : str :=
  if i =? 0 then lit "0.0"
  else
    let (c, e) := strip10 10 (Z.abs i) (-7) in
    (if i <? 0 then lit "-" else []) ++
    (if Z.abs i <? 1000 then exponential c e else positional1 c e).
