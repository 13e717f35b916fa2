(** The program osmio-pbf-read-speed. *)
From Coq Require Import String ZArith List Bool Lia.
From Verif Require Import Base Ints.
Import ListNotations.
Open Scope Z_scope.

(** [separated_string] of the crate separator for unsigned integers (used in
    src/bin/osmio-pbf-read-speed.rs:11-12, 31, 44): the decimal digits one by one, with a comma
    before a digit, other than the first, whose place from the right is a multiple of
    three.  [place] is the number of digits still to come. *)
Fixpoint separate (later : bool) (place : nat) (s : str) : str :=
  match s with
  | [] => []
  | c :: r => (if later && Nat.eqb (Nat.modulo place 3) 0 then lit "," else []) ++ c :: separate true (Nat.pred place) r
  end.
Definition separated (n : Z) : str := let s := show_uint n in separate false (length s) s.

Section Speed.

(** The clock: the answers of [Instant::now()] in the order of the calls, in
    nanoseconds. *)
Variable now : nat -> Z.
(** The texts of a duration in milliseconds as seconds ([f64] Display), and of a number
    of objects per that duration (separated_string_with_fixed_place). *)
Variable seconds : Z -> str.
Variable rate : Z -> Z -> str.

(** [(a - b).as_millis()]; [Instant] subtraction does not go below zero. *)
Definition millis (a b : Z) : Z := Z.max 0 (a - b) / 1000000.

(** The text of lines 29-34. *)
Definition so_far (n ms : Z) : str :=
  lit "Processed " ++ separated n ++ lit " objects so far. Total time " ++ seconds ms ++ lit " s. " ++ rate n ms ++ lit " objects/sec" ++ [10].
(** The text of lines 42-47. *)
Definition in_all (n ms : Z) : str :=
  [10] ++ lit "Processed " ++ separated n ++ lit " objects in " ++ seconds ms ++ lit " s. " ++ rate n ms ++ lit " objects/sec" ++ [10].

(** The loop of lines 23-39, over the objects the reader returns: [k] calls of the clock
    so far, [n] is num_objects, [last] is last_print.  The result is what is printed, the
    number of calls of the clock and num_objects. *)
Fixpoint speed_loop {A} (os : list A) (k : nat) (n last : Z) : str * nat * Z :=
  match os with
  | [] => ([], k, n)
  | _ :: r =>
      if n mod 1000000 =? 0 then
        let t := now k in
        if 1000 <? millis t last then
          let '(out, k', n') := speed_loop r (S k) (n + 1) t in (so_far n (millis t (now 0)) ++ out, k', n')
        else speed_loop r (S k) (n + 1) last
      else speed_loop r k (n + 1) last
  end.

(** main, src/bin/osmio-pbf-read-speed.rs:14-48, from the objects the reader returns and
    whether it then reports the end ([true]) or panics.  The result is the standard
    output; a panic prints nothing there.  The counter is a u64, taken not to overflow. *)
Definition speed {A} (os : list A) (ends : bool) : str :=
  let '(out, k, n) := speed_loop os 1 0 (now 0) in
  out ++ (if ends then in_all n (millis (now k) (now 0)) else []).

End Speed.
