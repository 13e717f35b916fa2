(** The program osmio-changeset-tags-to-sqlite from its compressed input file to the database and
    what it prints.  Progress lines, which depend on the clock, are left out, and
    printing is taken to succeed. *)
From Coq Require Import String ZArith List Bool Lia.
From Verif Require Import Base Ints Obj Changesets QuickXml Bz2 TagsTool.
Import ListNotations.
Open Scope Z_scope.

(** [{:>w}] of a number: filled with spaces on the left. *)
Definition right_align (w : nat) (s : str) : str := repeat 32 (w - length s) ++ s.

(** src/bin/osmio-changeset-tags-to-sqlite.rs:123-127 *)
Definition summary (num_changesets unique : Z) : str :=
  lit "Inserted " ++ show_uint num_changesets ++ lit " changesets, and got " ++ show_uint unique ++ lit " unique tags" ++ [10].
(** src/bin/osmio-changeset-tags-to-sqlite.rs:138-143 *)
Definition report_line (x : Z * Z * str) : str :=
  let '(num, percent, key) := x in
  right_align 8 (show_uint num) ++ lit " " ++ right_align 3 (show_uint percent) ++ lit "% tagged " ++ key ++ [10].

Section Main.
(** The bzip2 decoder, the order in which the HashMap of counts is iterated, and which
    database calls fail. *)
Variable dec : decoder.
Variable ord : list (str * Z) -> list (str * Z).
Variable fail : nat -> bool.

(** main, src/bin/osmio-changeset-tags-to-sqlite.rs:16-147: [file] are the bytes of the changeset
    file (None: it cannot be opened), [exists_] says whether the database file exists.
    The result is what is done to the database, what is printed, and whether the program
    succeeds.  The division in the report could only panic at its first line. *)
Definition main (file : option bytes) (exists_ : bool) : list event * str * bool :=
  match tool q_norm fail (opt_map (bz2_q_items dec) file) exists_ with
  | (evs, None) => (evs, [], false)
  | (evs, Some (num, pop)) =>
      match report num (ord pop) with
      | Ret (n, unique, lines) => (evs, summary n unique ++ flat_map report_line lines, true)
      | Panic => (evs, summary num (Z.of_nat (length pop)), false)
      end
  end.

End Main.
