(** C02: decimal integers. *)
From Coq Require Import String ZArith List Bool Lia.
From Verif Require Import Base SpecNum Ints.
Import ListNotations.
Open Scope Z_scope.

(** What a writer prints, a reader parses back to the same number. *)
Theorem C02_i64_roundtrip : forall n, in_i64 n -> parse_i64 (show_int n) = Some n.
Proof. exact parse_show_i64. Qed.
Theorem C02_i32_roundtrip : forall n, in_i32 n -> parse_i32 (show_int n) = Some n.
Proof. exact parse_show_i32. Qed.
Theorem C02_u32_roundtrip : forall n, in_u32 n -> parse_u32 (show_uint n) = Some n.
Proof. exact parse_show_u32. Qed.
Theorem C02_u64_roundtrip : forall n, in_u64 n -> parse_u64 (show_uint n) = Some n.
Proof. exact parse_show_u64. Qed.
Print Assumptions C02_i64_roundtrip.
Print Assumptions C02_i32_roundtrip.
Print Assumptions C02_u32_roundtrip.
Print Assumptions C02_u64_roundtrip.

(** A text is accepted exactly when it denotes a number of the type's range,
    and then the value is the one it denotes. *)
Theorem C02_parse_i64_exact : forall s v,
  parse_i64 s = Some v <-> denotes_int true s v /\ in_i64 v.
Proof.
  intros s v. unfold parse_i64, in_i64. rewrite parse_int_spec by lia.
  split; intros (H & B); (split; [exact H|lia]).
Qed.
Theorem C02_parse_i32_exact : forall s v,
  parse_i32 s = Some v <-> denotes_int true s v /\ in_i32 v.
Proof.
  intros s v. unfold parse_i32, in_i32. rewrite parse_int_spec by lia.
  split; intros (H & B); (split; [exact H|lia]).
Qed.
Theorem C02_parse_u32_exact : forall s v,
  parse_u32 s = Some v <-> denotes_int false s v /\ in_u32 v.
Proof.
  intros s v. unfold parse_u32, in_u32. rewrite parse_int_spec by lia.
  split; intros (H & B); (split; [exact H|lia]).
Qed.
Theorem C02_parse_u64_exact : forall s v,
  parse_u64 s = Some v <-> denotes_int false s v /\ in_u64 v.
Proof.
  intros s v. unfold parse_u64, in_u64. rewrite parse_int_spec by lia.
  split; intros (H & B); (split; [exact H|lia]).
Qed.
Print Assumptions C02_parse_i64_exact.
Print Assumptions C02_parse_i32_exact.
Print Assumptions C02_parse_u32_exact.
Print Assumptions C02_parse_u64_exact.

(** Printed integers denote the number, and consist of digits and a sign. *)
Theorem C02_show_denotes : forall n, denotes_int true (show_int n) n.
Proof. exact show_int_denotes. Qed.
Print Assumptions C02_show_denotes.

(** Non-vacuity: boundary values and rejected texts. *)
Example C02_ex_min : in_i64 (-9223372036854775808)
  /\ parse_i64 (lit "-9223372036854775808") = Some (-9223372036854775808)
  /\ show_int (-9223372036854775808) = lit "-9223372036854775808".
Proof. split; [unfold in_i64; lia|]. split; reflexivity. Qed.
Example C02_ex_over : parse_i64 (lit "9223372036854775808") = None
  /\ parse_u32 (lit "4294967296") = None /\ parse_u32 (lit "4294967295") = Some 4294967295
  /\ parse_u32 (lit "-0") = None /\ parse_i64 (lit "+") = None /\ parse_i64 (lit "") = None
  /\ parse_i64 (lit "1 ") = None /\ parse_u32 (lit "+0017") = Some 17.
Proof. repeat split; reflexivity. Qed.
