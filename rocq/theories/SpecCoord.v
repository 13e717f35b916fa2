(** What a decimal number text is, and what the shortest decimal for a binary64
    number is: specification only. *)
From Coq Require Import String ZArith List Bool Reals.
From Flocq Require Import Core.Core IEEE754.BinarySingleNaN.
From Verif Require Import Base SpecNum Ints Coord.
Import ListNotations.
Open Scope Z_scope.

Inductive SignText : str -> bool -> Prop :=
| Sign_none : SignText [] false
| Sign_plus : SignText (lit "+") false
| Sign_minus : SignText (lit "-") true.

Inductive ExpText : str -> Z -> Prop :=
| Exp_none : ExpText [] 0
| Exp_some c sg neg ds : (c = chr "e" \/ c = chr "E") -> SignText sg neg ->
    ds <> [] -> Forall is_digit ds ->
    ExpText (c :: sg ++ ds) (if neg then - dec_value ds else dec_value ds).

(** [s] is a decimal number text for (-1)^neg * m * 10^e. *)
Definition NumberText (s : str) (neg : bool) (m e : Z) : Prop :=
  exists sg ip dot fp ex x,
    s = sg ++ ip ++ dot ++ fp ++ ex /\ SignText sg neg /\
    Forall is_digit ip /\ Forall is_digit fp /\ ip ++ fp <> [] /\
    (dot = lit "." \/ (dot = [] /\ fp = [])) /\ ExpText ex x /\
    m = dec_value (ip ++ fp) /\ e = x - Z.of_nat (length fp).

(** [s] is, up to letter case, the name [name] with an optional sign. *)
Definition NameText (s : str) (neg : bool) (name : str) : Prop :=
  exists sg t, s = sg ++ t /\ SignText sg neg /\ map lower t = name.

(** c * 10^e, c without trailing zero, reads as |d| and every other decimal that
    reads as |d| has more digits. *)
Definition ShortestDecimal (d : f64) (c e : Z) : Prop :=
  0 < c /\ c mod 10 <> 0 /\ f64_of_dec false c e = Babs d /\
  forall c' e', 0 < c' -> f64_of_dec false c' e' = Babs d ->
    (length (show_uint c) < length (show_uint c'))%nat \/ (c' = c /\ e' = e).

(** [t] is the text Rust documents for [Display] of a finite f64: the shortest
    decimal that reads back, in positional notation. *)
Definition DisplayText (d : f64) (t : str) : Prop :=
  match d with
  | B754_zero s => t = (if s then lit "-" else []) ++ lit "0"
  | B754_finite s _ _ _ => exists c e, ShortestDecimal d c e /\ t = (if s then lit "-" else []) ++ positional c e
  | _ => False
  end.
