(** How OSM XML elements denote objects: specification side. *)
From Coq Require Import String ZArith List Bool Lia Permutation.
From Verif Require Import Base Ints Timestamp Obj Coord XmlToken.
Import ListNotations.
Open Scope Z_scope.

(** The value of the attribute with that name. *)
Fixpoint attribute (l : list (str * str)) (k : string) : option str :=
  match l with
  | [] => None
  | (k', v) :: r => if str_eqb k' (lit k) then Some v else attribute r k
  end.

(** The fields common to all objects.  Numbers that do not parse are absent;
    deleted means visible="false". *)
Definition meta_of (a : string -> option str) (id : Z) : meta :=
  {| m_id := id;
     m_version := opt_bind (a "version") parse_u32;
     m_deleted := match a "visible" with Some v => str_eqb v (lit "false") | None => false end;
     m_changeset := opt_bind (a "changeset") parse_u32;
     m_timestamp := opt_map ISOString (a "timestamp");
     m_uid := opt_bind (a "uid") parse_u32;
     m_user := a "user" |}%string.

(** What one child element contributes. *)
Definition tag_of (e : event) : option (str * str) :=
  match e with
  | EStart n l =>
      if str_eqb n (lit "tag") then
        match attribute l "k", attribute l "v" with
        | Some k, Some v => Some (k, v)
        | _, _ => None
        end
      else None
  | _ => None
  end.

Definition ref_of (e : event) : option Z :=
  match e with
  | EStart n l =>
      if str_eqb n (lit "nd") then opt_bind (attribute l "ref") parse_i64 else None
  | _ => None
  end.

Definition member_of (e : event) : option member :=
  match e with
  | EStart n l =>
      if str_eqb n (lit "member") then
        match opt_bind (attribute l "type") objtype_of_str, opt_bind (attribute l "ref") parse_i64 with
        | Some t, Some i => Some (t, i, match attribute l "role" with Some r => r | None => [] end)
        | _, _ => None
        end
      else None
  | _ => None
  end.

(** The position: none if a text is not a coordinate. *)
Definition position_of (lat lon : str) : option latlon :=
  match coord_from_str lat, coord_from_str lon with
  | ROk x, ROk y => Some (x, y)
  | _, _ => None
  end.

(** The object of an element with the given name, attributes and content. *)
Definition object_of (n : str) (l : list (str * str)) (body : list event) : option sobj :=
  let a := attribute l in
  opt_bind (opt_bind (a "id"%string) parse_i64) (fun id =>
  if str_eqb n (lit "node") then
    match a "lat"%string, a "lon"%string with
    | Some lat, Some lon =>
        Some (SNode (SN (meta_of a id) (filter_map tag_of body) (position_of lat lon)))
    | _, _ => None
    end
  else if str_eqb n (lit "way") then
    Some (SWay (SW (meta_of a id) (filter_map tag_of body) (filter_map ref_of body)))
  else if str_eqb n (lit "relation") then
    Some (SRel (SR (meta_of a id) (filter_map tag_of body) (filter_map member_of body)))
  else None).

(** Well-formed XML does not repeat an attribute. *)
Definition distinct_attrs (e : event) : Prop :=
  match e with EStart _ l => NoDup (map fst l) | _ => True end.

(** What an object looks like after a trip through text: the timestamp has
    become its ISO text, everything else is the same. *)
Definition meta_as_read (m : meta) : meta :=
  Meta (m_id m) (m_version m) (m_deleted m) (m_changeset m)
    (opt_map (fun t => ISOString (to_iso_string t)) (m_timestamp m)) (m_uid m) (m_user m).
Definition as_read (o : sobj) : sobj :=
  match o with
  | SNode n => SNode (SN (meta_as_read (sn_meta n)) (sn_tags n) (sn_latlon n))
  | SWay w => SWay (SW (meta_as_read (sw_meta w)) (sw_tags w) (sw_nodes w))
  | SRel r => SRel (SR (meta_as_read (sr_meta r)) (sr_tags r) (sr_members r))
  end.

Definition opt_prop {A} (P : A -> Prop) (o : option A) : Prop :=
  match o with Some a => P a | None => True end.

(** Field values in the ranges of their Rust types. *)
Definition in_range (o : sobj) : Prop :=
  let m := s_meta o in
  in_i64 (m_id m) /\ opt_prop in_u32 (m_version m) /\ opt_prop in_u32 (m_changeset m)
  /\ opt_prop in_u32 (m_uid m)
  /\ match o with
     | SNode n => opt_prop (fun p => in_i32 (fst p) /\ in_i32 (snd p)) (sn_latlon n)
     | SWay w => Forall in_i64 (sw_nodes w)
     | SRel r => Forall (fun m => in_i64 (snd (fst m))) (sr_members r)
     end.

(** Nodes have a position. *)
Definition has_position (o : sobj) : Prop :=
  match o with SNode n => sn_latlon n <> None | _ => True end.

(** A text XML can carry in an attribute: only XML characters, and none that the
    parser's attribute normalisation changes. *)
Definition carried (attr_ws : char -> char) (s : str) : Prop :=
  Forall (fun c => xml_char c = true /\ attr_ws c = c) s.

(** All free texts of an object can be carried. *)
Definition texts_carried (attr_ws : char -> char) (o : sobj) : Prop :=
  opt_prop (carried attr_ws) (m_user (s_meta o))
  /\ Forall (fun t => carried attr_ws (fst t) /\ carried attr_ws (snd t)) (s_tags o)
  /\ match o with SRel r => Forall (fun m => carried attr_ws (snd m)) (sr_members r) | _ => True end.

(** A timestamp that is safe to write without escaping: an epoch number, or an
    ISO text without markup characters. *)
Definition unmarked (s : str) : Prop :=
  Forall (fun c => c <> 38 /\ c <> 60 /\ c <> 62 /\ c <> 34 /\ c <> 39) s.
Definition safe_timestamp (attr_ws : char -> char) (t : timestamp) : Prop :=
  match t with
  | EpochNumber _ => True
  | ISOString s => unmarked s /\ carried attr_ws s
  end.

(** An object the XML format can carry. *)
Definition xml_object (attr_ws : char -> char) (o : sobj) : Prop :=
  in_range o /\ m_version (s_meta o) <> None /\ has_position o /\ texts_carried attr_ws o
  /\ opt_prop (safe_timestamp attr_ws) (m_timestamp (s_meta o)).

(** An XML name: a letter or an underscore, then letters, digits, hyphens, full stops and
    underscores.  All characters beyond ASCII count as letters; no colons, which separate prefixes. *)
Definition name_first (c : char) : Prop := 65 <= c <= 90 \/ 97 <= c <= 122 \/ c = 95 \/ 128 <= c.
Definition name_later (c : char) : Prop := name_first c \/ 48 <= c <= 57 \/ c = 45 \/ c = 46.
Definition xml_name (s : str) : Prop :=
  match s with
  | c :: r => name_first c /\ Forall name_later r /\ Forall (fun c => xml_char c = true) s
  | [] => False
  end.

(** Parsers may only change white space in attribute values. *)
Definition normalises (attr_ws : char -> char) : Prop :=
  forall c, c <> 9 -> c <> 10 -> c <> 13 -> attr_ws c = c.

(** ** Noise in elements *)

(** Attributes the readers know, of objects and of their children. *)
Definition obj_keys : list str :=
  map lit ["id"; "version"; "changeset"; "timestamp"; "uid"; "user"; "lat"; "lon"; "visible"]%string.
Definition child_keys : list str := map lit ["k"; "v"; "ref"; "type"; "role"]%string.

(** [l'] is [l] with attributes of other names added, in any order. *)
Definition noisy_attrs (keys : list str) (l l' : list (str * str)) : Prop :=
  exists extra, Forall (fun p => ~ In (fst p) keys) extra /\ Permutation l' (l ++ extra).

(** Events that mean nothing inside an object's element: text, comments, start
    and end of unknown elements. *)
Definition meaningless (e : event) : Prop :=
  match e with
  | EOther _ => True
  | EStart n _ | EEnd n => ~ In n (map lit ["tag"; "nd"; "member"; "node"; "way"; "relation"]%string)
  end.

(** [b'] is [b] with meaningless events inserted and unknown attributes added to
    the children. *)
Inductive noisy : list event -> list event -> Prop :=
| noisy_nil : noisy [] []
| noisy_add e b b' : meaningless e -> noisy b b' -> noisy b (e :: b')
| noisy_start n l l' b b' : noisy_attrs child_keys l l' -> noisy b b' ->
    noisy (EStart n l :: b) (EStart n l' :: b')
| noisy_end n b b' : noisy b b' -> noisy (EEnd n :: b) (EEnd n :: b')
| noisy_other t b b' : noisy b b' -> noisy (EOther t :: b) (EOther t :: b').
