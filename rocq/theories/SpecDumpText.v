(** Changesets written as a dump of OpenStreetMap's changesets: specification
    side.  One attribute after the other, every character that is special or is
    white space other than the space as a reference, UTF-8. *)
From Coq Require Import String ZArith List Bool Lia.
From Verif Require Import Base SpecNum Ints Utf8 Timestamp Obj Changesets SpecChangeset.
Import ListNotations.
Open Scope Z_scope.

Definition awkward : list Z := [9; 10; 13; 34; 38; 39; 60; 62].
Definition quoted (s : str) : str :=
  flat_map (fun c => if in_dec Z.eq_dec c awkward then lit "&#" ++ show_int c ++ lit ";" else [c]) s.

Definition attr_text (kv : string * str) : str :=
  lit " " ++ lit (fst kv) ++ lit "=" ++ [34] ++ quoted (snd kv) ++ [34].
Definition tag_text (kv : str * str) : str :=
  lit "<tag" ++ attr_text ("k"%string, fst kv) ++ attr_text ("v"%string, snd kv) ++ lit "/>".

Definition iso_text (t : timestamp) : str := match t with ISOString s => s | _ => [] end.
Definition opt_attr (k : string) (o : option str) : list (string * str) :=
  match o with Some v => [(k, v)] | None => [] end.
Definition changeset_attrs (d : changeset) : list (string * str) :=
  [("id"%string, show_int (cs_id d)); ("created_at"%string, iso_text (cs_created d))]
  ++ opt_attr "closed_at" (opt_map iso_text (cs_closed d))
  ++ [("open"%string, if cs_open d then lit "true" else lit "false")]
  ++ opt_attr "user" (cs_user d)
  ++ opt_attr "uid" (opt_map show_int (cs_uid d))
  ++ [("num_changes"%string, show_int (cs_num_changes d));
      ("comments_count"%string, show_int (cs_comments_count d))].

Definition changeset_text (d : changeset) : str :=
  lit "<changeset" ++ flat_map attr_text (changeset_attrs d) ++ lit ">"
  ++ flat_map tag_text (cs_tags d) ++ lit "</changeset>".
Definition dump_text (ds : list changeset) : str :=
  lit "<?xml version='1.0' encoding='UTF-8'?><osm>" ++ flat_map (fun d => 10 :: changeset_text d) ds ++ [10] ++ lit "</osm>".
Definition dump (ds : list changeset) : bytes := utf8 (dump_text ds).

(** The changesets that can be dumped: numbers in the ranges of their types,
    times in the form the reader gives them, text. *)
Definition iso_time (t : timestamp) : Prop := match t with ISOString s => valid_str s | _ => False end.
Definition dumpable (d : changeset) : Prop :=
  in_u32 (cs_id d) /\ iso_time (cs_created d)
  /\ match cs_closed d with Some t => iso_time t | None => True end
  /\ match cs_uid d with Some u => in_i64 u | None => True end
  /\ match cs_user d with Some s => valid_str s | None => True end
  /\ in_u64 (cs_num_changes d) /\ in_u64 (cs_comments_count d)
  /\ Forall (fun kv => valid_str (fst kv) /\ valid_str (snd kv)) (cs_tags d).

(** The events of the pieces of a changeset file. *)
Definition part_events (p : part) : list qevent :=
  match p with
  | Noise e => [e]
  | CEmpty n a => [QEmpty n a]
  | CFull n a body close => QStart n a :: body ++ [QEnd close]
  end.
Definition events (ps : list part) : list qevent := flat_map part_events ps.
