(** Latitude and longitude values: src/lib.rs:60-237. *)
From Coq Require Import String ZArith List Bool Lia.
From Flocq Require Import Core.Core IEEE754.BinarySingleNaN.
From Verif Require Import Base SpecNum Ints.
Import ListNotations.
Open Scope Z_scope.

(** ** binary64 and binary32 *)

Local Instance prec_gt_0_53 : Prec_gt_0 53 := eq_refl.
Local Instance prec_lt_emax_53 : Prec_lt_emax 53 1024 := eq_refl.
Local Instance prec_gt_0_24 : Prec_gt_0 24 := eq_refl.
Local Instance prec_lt_emax_24 : Prec_lt_emax 24 128 := eq_refl.

(** Rust's f64 and f32 (one NaN stands for all of them). *)
Definition f64 : Type := binary_float 53 1024.
Definition f32 : Type := binary_float 24 128.

(** [i as f64] for an i32 (rounding never needed: |i| < 2^53). *)
Definition f64_of_Z (i : Z) : f64 := binary_normalize 53 1024 _ _ mode_NE i 0 false.
(** [x as f64] for an f32 (widening is exact). *)
Definition f64_of_f32 (x : f32) : f64 :=
  match x with
  | B754_zero s => B754_zero s
  | B754_infinity s => B754_infinity s
  | B754_nan => B754_nan
  | B754_finite s m e _ => binary_normalize 53 1024 _ _ mode_NE (cond_Zopp s (Zpos m)) e s
  end.
(** [*], [/] and [<] on f64, and [f64::round] (ties away from zero). *)
Definition f64_mul (x y : f64) : f64 := Bmult mode_NE x y.
Definition f64_div (x y : f64) : f64 := Bdiv mode_NE x y.
Definition f64_lt (x y : f64) : bool := Bltb x y.
Definition f64_round (x : f64) : f64 := Bnearbyint mode_NA x.
(** [x as i32]: truncation, saturating, NaN becomes 0. *)
Definition f64_as_i32 (x : f64) : Z :=
  match x with
  | B754_nan => 0
  | B754_infinity true => - 2^31
  | B754_infinity false => 2^31 - 1
  | _ => Z.max (- 2^31) (Z.min (2^31 - 1) (Btrunc x))
  end.

(** ** f64::from_str *)

(** The binary64 number nearest to (-1)^neg * p/q (ties to even). *)
Definition f64_ratio (neg : bool) (p q : positive) : f64 :=
  SF2B _ (proj1 (Bdiv_correct_aux 53 1024 _ _ mode_NE neg p 0 false q 0)).

(** The binary64 number nearest to (-1)^neg * m * 10^e, for m >= 0. *)
Definition f64_of_dec (neg : bool) (m e : Z) : f64 :=
  match m with
  | Zpos p => if 0 <=? e then f64_ratio neg (Z.to_pos (m * 10 ^ e)) 1
              else f64_ratio neg p (Z.to_pos (10 ^ (- e)))
  | _ => B754_zero neg
  end.

(** Leading digits and the rest. *)
Fixpoint span_digits (s : str) : str * str :=
  match s with
  | c :: r => if digitb c then let (a, b) := span_digits r in (c :: a, b) else ([], s)
  | [] => ([], [])
  end.

(** ASCII lower case, for the case-insensitive names. *)
Definition lower (c : char) : char := if (65 <=? c) && (c <=? 90) then c + 32 else c.

(** The exponent part: nothing, or e/E, optional sign, digits. *)
Definition parse_exp (s : str) : option Z :=
  match s with
  | [] => Some 0
  | c :: r =>
      if lower c =? chr "e" then
        let '(neg, r') := match r with
                          | d :: r' => if d =? chr "-" then (true, r')
                                       else if d =? chr "+" then (false, r') else (false, r)
                          | [] => (false, r)
                          end in
        match span_digits r' with
        | ((_ :: _) as ds, []) => Some (if neg then - dec_value ds else dec_value ds)
        | _ => None
        end
      else None
  end.

(** A decimal number without sign. *)
Definition parse_unsigned (neg : bool) (s : str) : option f64 :=
  let (ip, r) := span_digits s in
  let (fp, r') := match r with
                  | c :: r1 => if c =? chr "." then span_digits r1 else ([], r)
                  | [] => ([], r)
                  end in
  match ip ++ fp with
  | [] => None
  | ds => match parse_exp r' with
          | Some x => Some (f64_of_dec neg (dec_value ds) (x - Z.of_nat (length fp)))
          | None => None
          end
  end.

(** [f64::from_str] (core::num::dec2flt): optional sign, then a decimal number,
    or inf / infinity / nan in any case; nothing may follow.  Simplified: the
    exponent is not clamped (core clamps it near 65536, which changes nothing
    unless the text has tens of thousands of digits). *)
Definition f64_from_str (s : str) : option f64 :=
  match s with
  | [] => None
  | c :: r =>
      let '(neg, body) := if c =? chr "-" then (true, r)
                          else if c =? chr "+" then (false, r) else (false, s) in
      match parse_unsigned neg body with
      | Some x => Some x
      | None =>
          let l := map lower body in
          if str_eqb l (lit "nan") then Some B754_nan
          else if str_eqb l (lit "inf") || str_eqb l (lit "infinity") then Some (B754_infinity neg)
          else None
      end
  end.

(** ** Coordinates *)

(** src/lib.rs:71 COORD_SCALE_FACTOR. *)
Definition scale_factor : f64 := f64_of_Z (1000000000 / 100).

(** src/lib.rs:82-84 lat_lon_inner_to_degrees, 118-120 degrees, 167-171 From. *)
Definition degrees (i : Z) : f64 := f64_div (f64_of_Z i) scale_factor.

(** src/lib.rs:195-237 ParseLatLonError (the payloads are kept out). *)
Inductive coord_err := TooLarge | TooSmall | ParseFloat.
Inductive result (A : Type) := ROk (a : A) | RErr (e : coord_err).
Arguments ROk {A}. Arguments RErr {A}.

(** src/lib.rs:159-163 and 176-180: the common match. *)
Definition coord_of_product (x : f64) : result Z :=
  let y := f64_round x in
  if f64_lt (f64_of_Z (2^31 - 1)) y then RErr TooLarge
  else if f64_lt y (f64_of_Z (- 2^31)) then RErr TooSmall
  else ROk (f64_as_i32 y).

(** src/lib.rs:173-182 TryFrom<f64>. *)
Definition coord_of_f64 (x : f64) : result Z := coord_of_product (f64_mul x scale_factor).
(** src/lib.rs:184-189 TryFrom<f32>. *)
Definition coord_of_f32 (x : f32) : result Z := coord_of_f64 (f64_of_f32 x).
(** src/lib.rs:155-165 FromStr. *)
Definition coord_from_str (s : str) : result Z :=
  match f64_from_str s with
  | Some x => coord_of_product (f64_mul x scale_factor)
  | None => RErr ParseFloat
  end.

(** Strip trailing zeros from c, adjusting the exponent. *)
Fixpoint strip10 (fuel : nat) (c e : Z) : Z * Z :=
  match fuel with
  | O => (c, e)
  | S f => if c mod 10 =? 0 then strip10 f (c / 10) (e + 1) else (c, e)
  end.

(** Positional notation for c * 10^e (core::num::fmt digits_to_dec_str with no
    minimum number of fraction digits). *)
Definition positional (c e : Z) : str :=
  let ds := show_uint c in
  if 0 <=? e then ds ++ repeat 48 (Z.to_nat e)
  else
    let k := Z.to_nat (- e) in
    if (length ds <=? k)%nat then lit "0." ++ repeat 48 (k - length ds) ++ ds
    else firstn (length ds - k) ds ++ lit "." ++ skipn (length ds - k) ds.

(** src/lib.rs:129-134 Display: shows the f64 [degrees i], that is, the
    shortest decimal that reads back as that f64.  Modelled as the exact decimal
    i * 10^-7 without trailing zeros; PropsCoord.v proves that this is the
    shortest decimal text and the only one of its length. *)
Definition show_coord (i : Z) : str :=
  if i =? 0 then lit "0"
  else
    let (c, e) := strip10 10 (Z.abs i) (-7) in
    (if i <? 0 then lit "-" else []) ++ positional c e.

(** src/lib.rs:410-433 Node::set_lat_lon for a pair of f64: the node's new
    coordinates (or unchanged) and the result. *)
Definition set_lat_lon (cur : option (Z * Z)) (loc : option (f64 * f64)) : option (Z * Z) * result unit :=
  match loc with
  | None => (None, ROk tt)
  | Some (l1, l2) =>
      match coord_of_f64 l1 with
      | RErr e => (cur, RErr e)
      | ROk a => match coord_of_f64 l2 with
                 | RErr e => (cur, RErr e)
                 | ROk b => (Some (a, b), ROk tt)
                 end
      end
  end.
