(** The order of object types, src/lib.rs:487-492. *)
From Coq Require Import ZArith List.
From Verif Require Import Base Obj.
Import ListNotations.
Open Scope Z_scope.

(** The discriminants of OSMObjectType, in the order of the variants, src/lib.rs:489-491. *)
Definition discriminant (t : objtype) : Z := match t with TNode => 0 | TWay => 1 | TRelation => 2 end.

(** derive(PartialOrd, Ord) on OSMObjectType, src/lib.rs:487: a fieldless enum is
    compared by its discriminants. *)
Definition objtype_cmp (a b : objtype) : comparison := (discriminant a ?= discriminant b).

(** The standard library's order of a pair (OSMObjectType, ObjId), the form in which
    the crate names an object (Relation::members, src/lib.rs:477-480; ObjId is i64,
    src/lib.rs:62): by type, then by id. *)
Definition objref_cmp (a b : objtype * Z) : comparison :=
  match objtype_cmp (fst a) (fst b) with
  | Eq => (snd a ?= snd b)
  | c => c
  end.
