(** Characters and references of XML 1.0: specification side. *)
From Coq Require Import String ZArith List Bool Lia.
From Verif Require Import Base.
Import ListNotations.
Open Scope Z_scope.

(** The characters of XML 1.0. *)
Definition legal (c : char) : Prop :=
  c = 9 \/ c = 10 \/ c = 13 \/ 32 <= c <= 55295 \/ 57344 <= c <= 65533 \/ 65536 <= c <= 1114111.

(** ** References *)

Inductive digit (base : Z) : char -> Z -> Prop :=
| digit_num d : 0 <= d <= 9 -> d < base -> digit base (48 + d) d
| digit_low d : 10 <= d <= 15 -> d < base -> digit base (97 + (d - 10)) d
| digit_up d : 10 <= d <= 15 -> d < base -> digit base (65 + (d - 10)) d.
Definition numeral (base : Z) (t : str) (v : Z) : Prop :=
  t <> [] /\ exists ds, Forall2 (digit base) t ds /\ v = fold_left (fun a d => a * base + d) ds 0.

(** What may stand between '&' and ';', and the character it stands for. *)
Definition refers (n : str) (c : char) : Prop :=
  (n = lit "lt" /\ c = 60) \/ (n = lit "gt" /\ c = 62) \/ (n = lit "amp" /\ c = 38)
  \/ (n = lit "quot" /\ c = 34) \/ (n = lit "apos" /\ c = 39)
  \/ legal c /\ exists t, (n = lit "#" ++ t /\ numeral 10 t c) \/ (n = lit "#x" ++ t /\ numeral 16 t c).
