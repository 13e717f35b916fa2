(** Specification of decimal notation, independent of the model. *)
From Coq Require Import ZArith List.
From Verif Require Import Base.
Import ListNotations.
Open Scope Z_scope.

(** '0' .. '9' *)
Definition is_digit (c : char) : Prop := 48 <= c <= 57.

(** Positional value of a digit sequence, most significant digit first. *)
Fixpoint dec_value (ds : str) : Z :=
  match ds with
  | [] => 0
  | c :: r => (c - 48) * 10 ^ Z.of_nat (length r) + dec_value r
  end.

(** [s] is decimal notation for the integer [v]; a minus sign is allowed only
    when [signed]. *)
Definition denotes_int (signed : bool) (s : str) (v : Z) : Prop :=
  exists ds, ds <> [] /\ Forall is_digit ds /\
    (  (s = ds /\ v = dec_value ds)
    \/ (s = 43 :: ds /\ v = dec_value ds)
    \/ (signed = true /\ s = 45 :: ds /\ v = - dec_value ds)).
