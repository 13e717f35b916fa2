(** Common vocabulary of the model: outcomes with panics, machine integers,
    strings as lists of Unicode scalar values, bytes as numbers. *)
From Coq Require Import Ascii String ZArith List Bool Lia.
From Coq Require Import ZifyBool ZifyNat.
Import ListNotations.
Open Scope Z_scope.

(** ** Outcomes *)

(** What a Rust call does: return a value or panic (unwrap on None/Err,
    expect, assert!, slice index out of range, unimplemented!, arithmetic
    overflow in an overflow-checked build). *)
Inductive outcome (A : Type) : Type :=
| Ret (a : A)
| Panic.
Arguments Ret {A} a.
Arguments Panic {A}.

Definition obind {A B} (x : outcome A) (f : A -> outcome B) : outcome B :=
  match x with Ret a => f a | Panic => Panic end.

Notation "'do' x <- e ; k" := (obind e (fun x => k))
  (at level 200, x pattern, e at level 100, k at level 200, right associativity).

(** [Option::unwrap] / [Result::unwrap]: panics on None / Err. *)
Definition unwrap {A} (o : option A) : outcome A :=
  match o with Some a => Ret a | None => Panic end.

Definition omap {A B} (f : A -> B) (x : outcome A) : outcome B :=
  match x with Ret a => Ret (f a) | Panic => Panic end.

(** Map a panicking function over a list, left to right, stopping at the first
    panic (a Rust [for] loop that pushes results, or [map().collect()]). *)
Fixpoint omapM {A B} (f : A -> outcome B) (l : list A) : outcome (list B) :=
  match l with
  | [] => Ret []
  | a :: r => do b <- f a; do bs <- omapM f r; Ret (b :: bs)
  end.

(** ** Machine integers *)

Definition in_u32 (z : Z) : Prop := 0 <= z < 2^32.
Definition in_u64 (z : Z) : Prop := 0 <= z < 2^64.
Definition in_i32 (z : Z) : Prop := - 2^31 <= z < 2^31.
Definition in_i64 (z : Z) : Prop := - 2^63 <= z < 2^63.

Definition in_u32b (z : Z) : bool := (0 <=? z) && (z <? 2^32).
Definition in_u64b (z : Z) : bool := (0 <=? z) && (z <? 2^64).
Definition in_i32b (z : Z) : bool := (- 2^31 <=? z) && (z <? 2^31).
Definition in_i64b (z : Z) : bool := (- 2^63 <=? z) && (z <? 2^63).

(** Rust [as] casts between integer types: reduction modulo 2^n into the
    target range. *)
Definition as_u32 (z : Z) : Z := z mod 2^32.
Definition as_u64 (z : Z) : Z := z mod 2^64.
Definition as_i32 (z : Z) : Z := (z + 2^31) mod 2^32 - 2^31.
Definition as_i64 (z : Z) : Z := (z + 2^63) mod 2^64 - 2^63.

(** Whether the crate was built with overflow checks ([true]: debug profile,
    [false]: release profile). *)
Definition profile := bool.
(** The choices of a build: whether overflow is checked, and whether the iterators of
    [zip] that end at different times look at one more element of the first of them
    (which the standard library leaves open and has changed), given their lengths.
    The three readers of members and tags concerned consume their iterators in
    different ways (collect, and next through filter_map). *)
Record build := Build {
  checked :> bool;
  s_member_rest : nat -> nat -> nat -> bool;
  a_member_rest : nat -> nat -> nat -> bool;
  a_tag_rest : nat -> nat -> bool
}.
(** One that looks at no more elements than it has to. *)
Definition plain (checked : bool) : build := Build checked (fun _ _ _ => false) (fun _ _ _ => false) (fun _ _ => false).

(** The result of an i32 / i64 addition or multiplication whose mathematical
    value is [z]: panic on overflow in a checked build, wrap otherwise. *)
Definition arith_i32 (checked : profile) (z : Z) : outcome Z :=
  if in_i32b z then Ret z else if checked then Panic else Ret (as_i32 z).
Definition arith_i64 (checked : profile) (z : Z) : outcome Z :=
  if in_i64b z then Ret z else if checked then Panic else Ret (as_i64 z).

Lemma in_u32b_iff z : in_u32b z = true <-> in_u32 z.
Proof. unfold in_u32b, in_u32. lia. Qed.
Lemma in_u64b_iff z : in_u64b z = true <-> in_u64 z.
Proof. unfold in_u64b, in_u64. lia. Qed.
Lemma in_i32b_iff z : in_i32b z = true <-> in_i32 z.
Proof. unfold in_i32b, in_i32. lia. Qed.
Lemma in_i64b_iff z : in_i64b z = true <-> in_i64 z.
Proof. unfold in_i64b, in_i64. lia. Qed.

Lemma as_u32_id z : in_u32 z -> as_u32 z = z.
Proof. unfold in_u32, as_u32. intros. apply Z.mod_small. lia. Qed.
Lemma as_u64_id z : in_u64 z -> as_u64 z = z.
Proof. unfold in_u64, as_u64. intros. apply Z.mod_small. lia. Qed.
Lemma as_i32_id z : in_i32 z -> as_i32 z = z.
Proof. unfold in_i32, as_i32. intros. rewrite Z.mod_small; lia. Qed.
Lemma as_i64_id z : in_i64 z -> as_i64 z = z.
Proof. unfold in_i64, as_i64. intros. rewrite Z.mod_small; lia. Qed.
Lemma as_i32_range z : in_i32 (as_i32 z).
Proof. unfold in_i32, as_i32. pose proof (Z.mod_pos_bound (z + 2^31) (2^32)). lia. Qed.
Lemma as_i64_range z : in_i64 (as_i64 z).
Proof. unfold in_i64, as_i64. pose proof (Z.mod_pos_bound (z + 2^63) (2^64)). lia. Qed.
Lemma as_u32_range z : in_u32 (as_u32 z).
Proof. unfold in_u32, as_u32. pose proof (Z.mod_pos_bound z (2^32)). lia. Qed.
Lemma as_u64_range z : in_u64 (as_u64 z).
Proof. unfold in_u64, as_u64. pose proof (Z.mod_pos_bound z (2^64)). lia. Qed.

Lemma arith_i32_ok c z : in_i32 z -> arith_i32 c z = Ret z.
Proof. intros H. unfold arith_i32. apply in_i32b_iff in H. now rewrite H. Qed.
Lemma arith_i64_ok c z : in_i64 z -> arith_i64 c z = Ret z.
Proof. intros H. unfold arith_i64. apply in_i64b_iff in H. now rewrite H. Qed.

(** ** Strings *)

(** A Rust [str] is modelled by its list of Unicode scalar values. *)
Notation char := Z (only parsing).
Notation str := (list Z) (only parsing).

(** A literal. *)
Fixpoint lit (s : string) : str :=
  match s with
  | EmptyString => []
  | String c r => Z.of_N (N_of_ascii c) :: lit r
  end.

(** The scalar value of a one-character literal. *)
Definition chr (s : string) : char :=
  match s with
  | EmptyString => 0
  | String c _ => Z.of_N (N_of_ascii c)
  end.

(** Unicode scalar values: what a Rust [char] can be. *)
Definition scalar (c : Z) : Prop := 0 <= c < 55296 \/ 57344 <= c < 1114112.
Definition scalarb (c : Z) : bool :=
  ((0 <=? c) && (c <? 55296)) || ((57344 <=? c) && (c <? 1114112)).
Lemma scalarb_iff c : scalarb c = true <-> scalar c.
Proof. unfold scalarb, scalar. lia. Qed.

Definition valid_str (s : str) : Prop := Forall scalar s.

(** A byte. *)
Definition byte (b : Z) : Prop := 0 <= b < 256.
Notation bytes := (list Z) (only parsing).

(** String equality. *)
Fixpoint str_eqb (a b : str) : bool :=
  match a, b with
  | [], [] => true
  | x :: a', y :: b' => (x =? y) && str_eqb a' b'
  | _, _ => false
  end.

Lemma str_eqb_eq a b : str_eqb a b = true <-> a = b.
Proof.
  revert b; induction a as [|x a IH]; intros [|y b]; cbn; split; intros H; try easy.
  - apply andb_true_iff in H as [H1 H2]. apply Z.eqb_eq in H1. apply IH in H2. congruence.
  - injection H as -> ->. rewrite Z.eqb_refl. now apply IH.
Qed.

Lemma str_eqb_refl a : str_eqb a a = true.
Proof. now apply str_eqb_eq. Qed.

Lemma str_eqb_neq a b : str_eqb a b = false <-> a <> b.
Proof.
  split; intros H.
  - intros ->. now rewrite str_eqb_refl in H.
  - destruct (str_eqb a b) eqn:E; [|easy]. now apply str_eqb_eq in E.
Qed.

Lemma str_eqb_sym a b : str_eqb a b = str_eqb b a.
Proof.
  destruct (str_eqb a b) eqn:E.
  - apply str_eqb_eq in E. subst. symmetry. apply str_eqb_refl.
  - symmetry. apply str_eqb_neq. apply str_eqb_neq in E. congruence.
Qed.

Definition str_eq_dec (a b : str) : {a = b} + {a <> b} := list_eq_dec Z.eq_dec a b.

(** [Option] helpers used by many functions. *)
Definition opt_map {A B} (f : A -> B) (o : option A) : option B :=
  match o with Some a => Some (f a) | None => None end.
Definition opt_bind {A B} (o : option A) (f : A -> option B) : option B :=
  match o with Some a => f a | None => None end.
Definition is_some {A} (o : option A) : bool :=
  match o with Some _ => true | None => false end.
Definition unwrap_or {A} (o : option A) (d : A) : A :=
  match o with Some a => a | None => d end.

(** [Iterator::filter_map]. *)
Fixpoint filter_map {A B} (f : A -> option B) (l : list A) : list B :=
  match l with
  | [] => []
  | a :: r => match f a with Some b => b :: filter_map f r | None => filter_map f r end
  end.

Lemma filter_map_app {A B} (f : A -> option B) l1 l2 :
  filter_map f (l1 ++ l2) = filter_map f l1 ++ filter_map f l2.
Proof.
  induction l1 as [|a l1 IH]; cbn; [easy|].
  destruct (f a); cbn; now rewrite IH.
Qed.

(** Proof automation shared by the development. *)
Ltac inv H := inversion H; subst; clear H.

(** Keep arithmetic folded under [cbn], [simpl] and [injection]. *)
#[global] Arguments Z.mul : simpl never.
#[global] Arguments Z.add : simpl never.
#[global] Arguments Z.sub : simpl never.
#[global] Arguments Z.opp : simpl never.
#[global] Arguments Z.div : simpl never.
#[global] Arguments Z.modulo : simpl never.
#[global] Arguments Z.pow : simpl never.
#[global] Arguments Z.min : simpl never.
#[global] Arguments Z.max : simpl never.
