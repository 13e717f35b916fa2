(** The builders of the String objects: StringNodeBuilder, StringWayBuilder and
    StringRelationBuilder, which the derive_builder macro generates from the attributes in
    src/obj_types/string_types.rs:26-98.  What the macro generates is taken from its
    documentation: a struct with an option for every field, setters that overwrite (with
    strip_option a setter of an optional field takes the value inside), and a build that
    takes the default given in the attribute for a field not set and fails if a field
    without default is not set. *)
From Coq Require Import String ZArith List Bool.
From Verif Require Import Base Timestamp Obj.
Import ListNotations.
Open Scope Z_scope.

(** The fields of the three structs together (src/obj_types/string_types.rs:26-49, 52-73,
    76-98); a builder of one kind never sets the fields of the other kinds. *)
Record obuilder := OB {
  ob_id : option Z;
  ob_version : option (option Z);
  ob_deleted : option bool;
  ob_changeset : option (option Z);
  ob_timestamp : option (option timestamp);
  ob_uid : option (option Z);
  ob_user : option (option str);
  ob_tags : option tags;
  ob_latlon : option (option latlon);
  ob_nodes : option (list Z);
  ob_members : option (list member)
}.

(** [StringNodeBuilder::default()] and so on. *)
Definition ob_new : obuilder := OB None None None None None None None None None None None.

(** The setters, src/obj_types/string_types.rs:26-98 (strip_option: 27, 53, 77). *)
Inductive setter :=
| B_id (v : Z) | B_version (v : Z) | B_deleted (v : bool) | B_changeset_id (v : Z)
| B_timestamp (v : timestamp) | B_uid (v : Z) | B_user (v : str) | B_tags (v : list (str * str))
| B_lat_lon (v : latlon) | B_nodes (v : list Z) | B_members (v : list member).

Definition ob_set (b : obuilder) (c : setter) : obuilder :=
  let '(OB i ve de ch ti ui us ta la no me) := b in
  match c with
  | B_id v => OB (Some v) ve de ch ti ui us ta la no me
  | B_version v => OB i (Some (Some v)) de ch ti ui us ta la no me
  | B_deleted v => OB i ve (Some v) ch ti ui us ta la no me
  | B_changeset_id v => OB i ve de (Some (Some v)) ti ui us ta la no me
  | B_timestamp v => OB i ve de ch (Some (Some v)) ui us ta la no me
  | B_uid v => OB i ve de ch ti (Some (Some v)) us ta la no me
  | B_user v => OB i ve de ch ti ui (Some (Some v)) ta la no me
  | B_tags v => OB i ve de ch ti ui us (Some v) la no me
  | B_lat_lon v => OB i ve de ch ti ui us ta (Some (Some v)) no me
  | B_nodes v => OB i ve de ch ti ui us ta la (Some v) me
  | B_members v => OB i ve de ch ti ui us ta la no (Some v)
  end.

(** [build()]: the defaults of src/obj_types/string_types.rs:31-48, 55-72, 79-97; the error
    for a builder without id is [None]. *)
Definition ob_build (t : objtype) (b : obuilder) : option sobj :=
  opt_map (fun id =>
    let m := Meta id (unwrap_or (ob_version b) None) (unwrap_or (ob_deleted b) false) (unwrap_or (ob_changeset b) None)
               (unwrap_or (ob_timestamp b) None) (unwrap_or (ob_uid b) None) (unwrap_or (ob_user b) None) in
    let tg := unwrap_or (ob_tags b) [] in
    match t with
    | TNode => SNode (SN m tg (unwrap_or (ob_latlon b) None))
    | TWay => SWay (SW m tg (unwrap_or (ob_nodes b) []))
    | TRelation => SRel (SR m tg (unwrap_or (ob_members b) []))
    end) (ob_id b).
