(** The XML and OSC readers: src/xml/mod.rs:73-133, 149-357 and
    src/osc/mod.rs:31-91, as functions of the items the XML parser yields. *)
From Coq Require Import String ZArith List Bool Lia.
From Verif Require Import Base Ints Timestamp Obj Coord XmlToken.
Import ListNotations.
Open Scope Z_scope.

(** ** Attributes *)

(** [Vec::swap_remove]: the element goes out, the last one takes its place. *)
Definition swap_remove {A} (i : nat) (l : list A) : list A :=
  match nth_error l (length l - 1) with
  | None => l
  | Some x => if Nat.eqb i (length l - 1) then removelast l else set_nth i x (removelast l)
  end.

Fixpoint attr_position (key : str) (l : list (str * str)) : option nat :=
  match l with
  | [] => None
  | (k, _) :: r => if str_eqb k key then Some O else opt_map S (attr_position key r)
  end.

(** get_xml_attribute, src/xml/mod.rs:162-171: the value of the first attribute
    of that name, taken out of the list. *)
Definition get_attr (key : str) (l : list (str * str)) : option str * list (str * str) :=
  match attr_position key l with
  | None => (None, l)
  | Some i => (opt_map snd (nth_error l i), swap_remove i l)
  end.

(** ** Children *)

Definition name_is (n : str) (s : string) : bool := str_eqb n (lit s).

(** get_tags, src/xml/mod.rs:173-193.  (The lists the attributes are taken from
    are not looked at again, so the updated ones are dropped.) *)
Definition get_tags (els : list event) : list (str * str) :=
  filter_map (fun el =>
    match el with
    | EStart n l =>
        if name_is n "tag" then
          let '(ko, l) := get_attr (lit "k") l in
          let '(vo, l) := get_attr (lit "v") l in
          match ko, vo with Some k, Some v => Some (k, v) | _, _ => None end
        else None
    | _ => None
    end) els.

(** get_nodes, src/xml/mod.rs:195-216 *)
Definition get_nodes (els : list event) : list Z :=
  filter_map (fun el =>
    match el with
    | EStart n l =>
        if name_is n "nd" then opt_bind (fst (get_attr (lit "ref") l)) parse_i64 else None
    | _ => None
    end) els.

(** get_members, src/xml/mod.rs:218-242 *)
Definition get_members (els : list event) : list member :=
  filter_map (fun el =>
    match el with
    | EStart n l =>
        if name_is n "member" then
          let '(ro, l) := get_attr (lit "ref") l in
          let ref_id_o := opt_bind ro parse_i64 in
          let '(ty, l) := get_attr (lit "type") l in
          let member_type_o := opt_bind ty objtype_of_str in
          let '(role, l) := get_attr (lit "role") l in
          match ref_id_o, member_type_o with
          | Some i, Some t => Some (t, i, unwrap_or role [])
          | _, _ => None
          end
        else None
    | _ => None
    end) els.

(** ** Elements *)

(** The visible attribute, src/xml/mod.rs:273-279 and copies. *)
Definition deleted_of (visible : option str) : bool :=
  unwrap_or (opt_bind visible (fun v =>
    if name_is v "true" then Some false
    else if name_is v "false" then Some true
    else None)) false.

(** node_xml_elements_to_osm_obj, src/xml/mod.rs:256-293.  [attrs] are the
    attributes of the first event of [els]. *)
Definition node_of (attrs : list (str * str)) (els : list event) : option sobj :=
  let '(id, attrs) := get_attr (lit "id") attrs in
  opt_bind (opt_bind id parse_i64) (fun id =>
  let '(version, attrs) := get_attr (lit "version") attrs in
  let version := opt_bind version parse_u32 in
  let '(changeset, attrs) := get_attr (lit "changeset") attrs in
  let changeset := opt_bind changeset parse_u32 in
  let '(timestamp, attrs) := get_attr (lit "timestamp") attrs in
  let timestamp := opt_map ISOString timestamp in
  let '(uid, attrs) := get_attr (lit "uid") attrs in
  let uid := opt_bind uid parse_u32 in
  let '(user, attrs) := get_attr (lit "user") attrs in
  let '(lat, attrs) := get_attr (lit "lat") attrs in
  opt_bind (opt_map coord_from_str lat) (fun lat =>
  let '(lon, attrs) := get_attr (lit "lon") attrs in
  opt_bind (opt_map coord_from_str lon) (fun lon =>
  let lat_lon := match lat, lon with ROk lat, ROk lon => Some (lat, lon) | _, _ => None end in
  let '(visible, attrs) := get_attr (lit "visible") attrs in
  Some (SNode (SN (Meta id version (deleted_of visible) changeset timestamp uid user)
                  (get_tags els) lat_lon))))).

(** way_xml_elements_to_osm_obj, src/xml/mod.rs:295-325 *)
Definition way_of (attrs : list (str * str)) (els : list event) : option sobj :=
  let '(id, attrs) := get_attr (lit "id") attrs in
  opt_bind (opt_bind id parse_i64) (fun id =>
  let '(version, attrs) := get_attr (lit "version") attrs in
  let version := opt_bind version parse_u32 in
  let '(changeset, attrs) := get_attr (lit "changeset") attrs in
  let changeset := opt_bind changeset parse_u32 in
  let '(timestamp, attrs) := get_attr (lit "timestamp") attrs in
  let timestamp := opt_map ISOString timestamp in
  let '(uid, attrs) := get_attr (lit "uid") attrs in
  let uid := opt_bind uid parse_u32 in
  let '(user, attrs) := get_attr (lit "user") attrs in
  let '(visible, attrs) := get_attr (lit "visible") attrs in
  Some (SWay (SW (Meta id version (deleted_of visible) changeset timestamp uid user)
                 (get_tags els) (get_nodes els)))).

(** relation_xml_elements_to_osm_obj, src/xml/mod.rs:327-357 *)
Definition relation_of (attrs : list (str * str)) (els : list event) : option sobj :=
  let '(id, attrs) := get_attr (lit "id") attrs in
  opt_bind (opt_bind id parse_i64) (fun id =>
  let '(version, attrs) := get_attr (lit "version") attrs in
  let version := opt_bind version parse_u32 in
  let '(changeset, attrs) := get_attr (lit "changeset") attrs in
  let changeset := opt_bind changeset parse_u32 in
  let '(timestamp, attrs) := get_attr (lit "timestamp") attrs in
  let timestamp := opt_map ISOString timestamp in
  let '(uid, attrs) := get_attr (lit "uid") attrs in
  let uid := opt_bind uid parse_u32 in
  let '(user, attrs) := get_attr (lit "user") attrs in
  let '(visible, attrs) := get_attr (lit "visible") attrs in
  Some (SRel (SR (Meta id version (deleted_of visible) changeset timestamp uid user)
                 (get_tags els) (get_members els)))).

(** xml_elements_to_osm_obj, src/xml/mod.rs:244-254 *)
Definition obj_of_events (els : list event) : option sobj :=
  match els with
  | EStart n attrs :: _ =>
      if name_is n "node" then node_of attrs els
      else if name_is n "way" then way_of attrs els
      else if name_is n "relation" then relation_of attrs els
      else None
  | _ => None
  end.

(** ** The reader *)

Definition obj_name (n : str) : bool := name_is n "node" || name_is n "way" || name_is n "relation".

(** The loop of XMLReader::next, src/xml/mod.rs:96-129.  [push] is should_push,
    [acc] the collected elements. *)
Fixpoint xml_pull (push : bool) (acc : list event) (l : list item)
  : outcome (list event * list item) :=
  match l with
  | [] => Ret (acc, [])
  | IErr :: _ => Panic
  | IEv e :: r =>
      let push := match e with EStart n _ => obj_name n || push | _ => push end in
      let acc := if push then acc ++ [e] else acc in
      if (match e with EEnd n => obj_name n | _ => false end) then Ret (acc, r)
      else xml_pull push acc r
  end.

(** XMLReader::next, src/xml/mod.rs:91-132; the state is what the parser still
    has to yield. *)
Definition xml_next (l : list item) : outcome (option sobj * list item) :=
  do (els, r) <- xml_pull false [] l;
  Ret (obj_of_events els, r).

(** The loop of OSCReader::next, src/osc/mod.rs:54-87 *)
Fixpoint osc_pull (push : bool) (acc : list event) (l : list item)
  : outcome (list event * list item) :=
  match l with
  | [] => Ret (acc, [])
  | IErr :: _ => Panic
  | IEv e :: r =>
      let push := match e with EStart n _ => obj_name n || push | _ => push end in
      let acc := if push then acc ++ [e] else acc in
      if (match e with EEnd n => obj_name n | _ => false end) then Ret (acc, r)
      else osc_pull push acc r
  end.

(** OSCReader::next, src/osc/mod.rs:49-90 *)
Definition osc_next (l : list item) : outcome (option sobj * list item) :=
  do (els, r) <- osc_pull false [] l;
  Ret (obj_of_events els, r).
