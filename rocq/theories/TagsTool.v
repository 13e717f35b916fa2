(** The program osmio-changeset-tags-to-sqlite:
    src/bin/osmio-changeset-tags-to-sqlite.rs.  SQLite is modelled by what it
    promises: CREATE TABLE outside a transaction is durable at once, inserts inside
    a transaction become durable together at COMMIT, and not at all if the program
    fails or dies before.  Any database call may fail.  Progress output is left
    out. *)
From Coq Require Import String ZArith List Bool Lia.
From Verif Require Import Base Obj Utf8 Json Changesets.
Import ListNotations.
Open Scope Z_scope.

(** A row of changeset_tags: id and other_tags.  The parameter tags_json is a
    Vec<u8>, so what is stored is a blob (src/bin/osmio-changeset-tags-to-sqlite.rs:56, 112). *)
Definition row : Type := Z * bytes.

(** What the program does to the database. *)
Inductive event := EOpen | ECreate | EBegin | EInsert (r : row) | ECommit | ERollback.

(** A database file: the rows of the table on disk (None: no table yet) and the
    rows of the open transaction. *)
Record db := DB { on_disk : option (list row); pending : list row }.
Definition db_new : db := DB None [].
Definition db_step (d : db) (e : event) : db :=
  match e with
  | EOpen => db_new
  | ECreate => DB (Some []) []
  | EBegin => DB (on_disk d) []
  | EInsert r => DB (on_disk d) (pending d ++ [r])
  | ECommit => DB (opt_map (fun rows => rows ++ pending d) (on_disk d)) []
  | ERollback => DB (on_disk d) []
  end.
Definition db_after (evs : list event) : db := fold_left db_step evs db_new.

(** The counts of keys: a HashMap, src/bin/osmio-changeset-tags-to-sqlite.rs:102-108. *)
Fixpoint count_key (k : str) (m : list (str * Z)) : list (str * Z) :=
  match m with
  | [] => [(k, 1)]
  | (k', n) :: r => if str_eqb k k' then (k', n + 1) :: r else (k', n) :: count_key k r
  end.
Definition count_tags (t : tags) (m : list (str * Z)) : list (str * Z) :=
  fold_left (fun m kv => count_key (fst kv) m) t m.

Section Tool.
Variable norm : str -> option str.
(** Whether the n-th database call fails. *)
Variable fail : nat -> bool.

(** The loop and the commit, src/bin/osmio-changeset-tags-to-sqlite.rs:67-121: the events, and if all went well the
    number of changesets and the counts.  [rows] are the rows inserted so far: a
    second row with the same primary key is refused.  Every item consumes input, so
    the length of the input bounds the number of turns. *)
Fixpoint tool_loop (fuel n : nat) (rows : list row) (num : Z) (pop : list (str * Z)) (s : tagreader)
  : list event * option (Z * list (str * Z)) :=
  match fuel with
  | O => ([ERollback], None)
  | S f =>
      match tr_next norm s with
      | (End, _) => if fail n then ([ERollback], None) else ([ECommit], Some (num, pop))
      | (Error, _) => ([ERollback], None)
      | (Item (cid, t), s') =>
          let r := (as_i64 cid, utf8 (pairs_json t)) in
          if fail n || existsb (Z.eqb (fst r)) (map fst rows) then ([ERollback], None)
          else let (evs, res) := tool_loop f (S n) (rows ++ [r]) (num + 1) (count_tags t pop) s' in
               (EInsert r :: evs, res)
      end
  end.

(** main, src/bin/osmio-changeset-tags-to-sqlite.rs:16-121: [input] is None if the changeset file cannot be opened;
    [exists_] says whether the database file already exists. *)
Definition tool (input : option (list qitem)) (exists_ : bool) : list event * option (Z * list (str * Z)) :=
  match input with
  | None => ([], None)
  | Some items =>
      if exists_ then ([], None)
      else if fail 0 then ([], None)
      else if fail 1 then ([EOpen], None)
      else if fail 2 then ([EOpen; ECreate], None)
      else if fail 3 then ([EOpen; ECreate; EBegin; ERollback], None)
      else let (evs, res) := tool_loop (S (length items)) 4 [] 0 [] (tr_new items) in
           (EOpen :: ECreate :: EBegin :: evs, res)
  end.

End Tool.

(** ** The report *)

(** Order of (usize, String). *)
Definition pop_cmp (a b : Z * str) : comparison :=
  match fst a ?= fst b with Eq => str_cmp (snd a) (snd b) | c => c end.
(** Vec::sort, as insertion sort. *)
Fixpoint sort_in (x : Z * str) (l : list (Z * str)) : list (Z * str) :=
  match l with
  | [] => [x]
  | y :: r => match pop_cmp x y with Gt => y :: sort_in x r | _ => x :: l end
  end.
Definition sort_pop (l : list (Z * str)) : list (Z * str) := fold_right sort_in [] l.

(** The printing loop, src/bin/osmio-changeset-tags-to-sqlite.rs:134-144: count, percentage, key.  Division by
    zero panics. *)
Fixpoint report_lines (num_changesets : Z) (l : list (Z * str)) : outcome (list (Z * Z * str)) :=
  match l with
  | [] => Ret []
  | (num, key) :: r =>
      if num * 1000 <? num_changesets then Ret []
      else if num_changesets =? 0 then Panic
      else do rest <- report_lines num_changesets r;
           Ret ((num, num * 100 / num_changesets, key) :: rest)
  end.
(** src/bin/osmio-changeset-tags-to-sqlite.rs:123-144: the two numbers of the summary and the lines; [entries] is
    the HashMap in the order in which it is iterated. *)
Definition report (num_changesets : Z) (entries : list (str * Z)) : outcome (Z * Z * list (Z * Z * str)) :=
  do lines <- report_lines num_changesets (firstn 100 (rev (sort_pop (map (fun '(k, v) => (v, k)) entries))));
  Ret (num_changesets, Z.of_nat (length entries), lines).
