(** OSM objects: src/lib.rs (traits OSMObjBase, Node, Way, Relation, OSMObj,
    OSMObjectType) and src/obj_types. *)
From Coq Require Import String ZArith List Bool Lia.
From Verif Require Import Base Timestamp.
Import ListNotations.
Open Scope Z_scope.

(** ** Object types *)

(** src/lib.rs:488-493 *)
Inductive objtype := TNode | TWay | TRelation.

(** src/lib.rs:496-502 *)
Definition name_short (t : objtype) : char :=
  match t with TNode => chr "n" | TWay => chr "w" | TRelation => chr "r" end.

(** src/lib.rs:503-509; also [Display], src/lib.rs:518-522. *)
Definition name_long (t : objtype) : str :=
  match t with TNode => lit "node" | TWay => lit "way" | TRelation => lit "relation" end.

(** src/lib.rs:524-535 ([TryFrom<char>]); the error text is dropped. *)
Definition objtype_of_char (c : char) : option objtype :=
  if c =? chr "n" then Some TNode
  else if c =? chr "w" then Some TWay
  else if c =? chr "r" then Some TRelation
  else None.

(** src/lib.rs:537-548 ([FromStr]); the error text is dropped. *)
Definition objtype_of_str (s : str) : option objtype :=
  if str_eqb s (lit "n") || str_eqb s (lit "node") then Some TNode
  else if str_eqb s (lit "w") || str_eqb s (lit "way") then Some TWay
  else if str_eqb s (lit "r") || str_eqb s (lit "relation") || str_eqb s (lit "rel")
       then Some TRelation
  else None.

Definition objtype_eqb (a b : objtype) : bool :=
  match a, b with
  | TNode, TNode | TWay, TWay | TRelation, TRelation => true
  | _, _ => false
  end.

(** ** Tag lists *)

Notation tags := (list (str * str)) (only parsing).

(** The index search shared by set_tag and unset_tag:
    [iter().enumerate().filter_map(k == key).next()],
    src/obj_types/string_types.rs:343-348 and its copies. *)
Fixpoint find_idx (key : str) (l : tags) : option nat :=
  match l with
  | [] => None
  | (k, _) :: r => if str_eqb k key then Some O else opt_map S (find_idx key r)
  end.

(** [vec[i] = x]. *)
Fixpoint set_nth {A} (i : nat) (x : A) (l : list A) : list A :=
  match l, i with
  | [], _ => []
  | _ :: r, O => x :: r
  | a :: r, S i' => a :: set_nth i' x r
  end.

(** [vec.remove(i)]. *)
Fixpoint remove_nth {A} (i : nat) (l : list A) : list A :=
  match l, i with
  | [], _ => []
  | _ :: r, O => r
  | a :: r, S i' => a :: remove_nth i' r
  end.

(** Lookup: value of the first tag with that key;
    src/obj_types/string_types.rs:331-338 and copies (431-437, 538-544),
    src/obj_types/arc_types.rs:305-318, 424-431, 538-545. *)
Definition tags_get (key : str) (l : tags) : option str :=
  match filter_map (fun '(k, v) => if str_eqb k key then Some v else None) l with
  | v :: _ => Some v
  | [] => None
  end.

(** set_tag: replace in place or push at the end;
    src/obj_types/string_types.rs:340-353 and copies (440-453, 546-559),
    src/obj_types/arc_types.rs:433-446, 547-560. *)
Definition tags_set (key value : str) (l : tags) : tags :=
  match find_idx key l with
  | None => l ++ [(key, value)]
  | Some i => set_nth i (key, value) l
  end.

(** unset_tag: remove the first tag with that key;
    src/obj_types/string_types.rs:355-366 and copies (455-466, 561-572),
    src/obj_types/arc_types.rs:448-459, 562-573. *)
Definition tags_unset (key : str) (l : tags) : tags :=
  match find_idx key l with
  | None => l
  | Some i => remove_nth i l
  end.

(** ** Fields common to all objects *)

(** The fields _id, _version, _deleted, _changeset_id, _timestamp, _uid, _user
    of every struct in src/obj_types (src/obj_types/string_types.rs:26-98,
    src/obj_types/arc_types.rs:25-65, src/obj_types/rc_types.rs:25-65).  The string types SmolStr,
    Arc<str> and Rc<str> are all modelled as [str]. *)
Record meta := Meta {
  m_id : Z;
  m_version : option Z;
  m_deleted : bool;
  m_changeset : option Z;
  m_timestamp : option timestamp;
  m_uid : option Z;
  m_user : option str
}.

(** Setters, src/obj_types/string_types.rs:306-327 and copies. *)
Definition mset_id (v : Z) (m : meta) :=
  Meta v (m_version m) (m_deleted m) (m_changeset m) (m_timestamp m) (m_uid m) (m_user m).
Definition mset_version (v : option Z) (m : meta) :=
  Meta (m_id m) v (m_deleted m) (m_changeset m) (m_timestamp m) (m_uid m) (m_user m).
Definition mset_deleted (v : bool) (m : meta) :=
  Meta (m_id m) (m_version m) v (m_changeset m) (m_timestamp m) (m_uid m) (m_user m).
Definition mset_changeset (v : option Z) (m : meta) :=
  Meta (m_id m) (m_version m) (m_deleted m) v (m_timestamp m) (m_uid m) (m_user m).
Definition mset_timestamp (v : option timestamp) (m : meta) :=
  Meta (m_id m) (m_version m) (m_deleted m) (m_changeset m) v (m_uid m) (m_user m).
Definition mset_uid (v : option Z) (m : meta) :=
  Meta (m_id m) (m_version m) (m_deleted m) (m_changeset m) (m_timestamp m) v (m_user m).
Definition mset_user (v : option str) (m : meta) :=
  Meta (m_id m) (m_version m) (m_deleted m) (m_changeset m) (m_timestamp m) (m_uid m) v.

(** A position: inner values of Lat and Lon (i32). *)
Definition latlon : Type := Z * Z.
(** A relation member. *)
Definition member : Type := objtype * Z * str.

(** ** String objects: src/obj_types/string_types.rs *)

(** src/obj_types/string_types.rs:26-49 *)
Record snode := SN { sn_meta : meta; sn_tags : tags; sn_latlon : option latlon }.
(** src/obj_types/string_types.rs:51-73 *)
Record sway := SW { sw_meta : meta; sw_tags : tags; sw_nodes : list Z }.
(** src/obj_types/string_types.rs:75-98 *)
Record srel := SR { sr_meta : meta; sr_tags : tags; sr_members : list member }.
(** src/obj_types/string_types.rs:100-105 *)
Inductive sobj := SNode (n : snode) | SWay (w : sway) | SRel (r : srel).

(** ** Arc and Rc objects: src/obj_types/arc_types.rs, src/obj_types/rc_types.rs.
    The two files are the same text up to the pointer type, except that
    RcNode::tag has a match where ArcNode::tag has and_then; one model serves
    both.  A node's tag list is optional. *)

(** src/obj_types/arc_types.rs:25-37, src/obj_types/rc_types.rs:25-37 *)
Record anode := AN { an_meta : meta; an_tags : option tags; an_latlon : option latlon }.
(** src/obj_types/arc_types.rs:39-51 *)
Record away := AW { aw_meta : meta; aw_tags : tags; aw_nodes : list Z }.
(** src/obj_types/arc_types.rs:53-65 *)
Record arel := AR { ar_meta : meta; ar_tags : tags; ar_members : list member }.
(** src/obj_types/arc_types.rs:67-72 *)
Inductive aobj := ANode (n : anode) | AWay (w : away) | ARel (r : arel).

(** ** Getters *)

(** Dispatch of the metadata getters, src/obj_types/string_types.rs:123-144. *)
Definition s_meta (o : sobj) : meta :=
  match o with SNode n => sn_meta n | SWay w => sw_meta w | SRel r => sr_meta r end.
(** src/obj_types/arc_types.rs:74-95 *)
Definition a_meta (o : aobj) : meta :=
  match o with ANode n => an_meta n | AWay w => aw_meta w | ARel r => ar_meta r end.

(** tags(), src/obj_types/string_types.rs:168-170, 327-329 *)
Definition s_tags (o : sobj) : tags :=
  match o with SNode n => sn_tags n | SWay w => sw_tags w | SRel r => sr_tags r end.
(** tags(), src/obj_types/arc_types.rs:119-125, 298-303 *)
Definition a_tags (o : aobj) : tags :=
  match o with
  | ANode n => match an_tags n with None => [] | Some t => t end
  | AWay w => aw_tags w
  | ARel r => ar_tags r
  end.

(** tag(k), src/obj_types/string_types.rs:172-178 *)
Definition s_tag (o : sobj) (key : str) : option str :=
  match o with
  | SNode n => tags_get key (sn_tags n)
  | SWay w => tags_get key (sw_tags w)
  | SRel r => tags_get key (sr_tags r)
  end.
(** tag(k), src/obj_types/arc_types.rs:142-148, 305-318 *)
Definition a_tag (o : aobj) (key : str) : option str :=
  match o with
  | ANode n => opt_bind (an_tags n) (tags_get key)
  | AWay w => tags_get key (aw_tags w)
  | ARel r => tags_get key (ar_tags r)
  end.

(** has_tag, src/lib.rs:334-336 *)
Definition s_has_tag (o : sobj) (key : str) : bool := is_some (s_tag o key).
Definition a_has_tag (o : aobj) (key : str) : bool := is_some (a_tag o key).

(** num_tags, src/lib.rs:337-339 (default: tags().count()) *)
Definition s_num_tags (o : sobj) : nat := length (s_tags o).
(** num_tags override, src/obj_types/arc_types.rs:127-133 *)
Definition a_num_tags (o : aobj) : nat :=
  match o with
  | ANode n => match an_tags n with None => O | Some t => length t end
  | AWay w => length (aw_tags w)
  | ARel r => length (ar_tags r)
  end.

(** untagged, src/lib.rs:357-359 (default: num_tags() == 0) *)
Definition s_untagged (o : sobj) : bool := Nat.eqb (s_num_tags o) 0.
(** untagged override, src/obj_types/arc_types.rs:134-140 *)
Definition a_untagged (o : aobj) : bool :=
  match o with
  | ANode n => match an_tags n with None => true | Some [] => true | Some _ => false end
  | AWay w => match aw_tags w with [] => true | _ => false end
  | ARel r => match ar_tags r with [] => true | _ => false end
  end.

(** tagged, src/lib.rs:353-355 *)
Definition s_tagged (o : sobj) : bool := negb (s_untagged o).
Definition a_tagged (o : aobj) : bool := negb (a_untagged o).

(** object_type, src/obj_types/string_types.rs:196-202, src/obj_types/arc_types.rs:166-172 *)
Definition s_type (o : sobj) : objtype :=
  match o with SNode _ => TNode | SWay _ => TWay | SRel _ => TRelation end.
Definition a_type (o : aobj) : objtype :=
  match o with ANode _ => TNode | AWay _ => TWay | ARel _ => TRelation end.

(** into_node / into_way / into_relation, src/obj_types/string_types.rs:210-232 *)
Definition into_node (o : sobj) : option snode := match o with SNode n => Some n | _ => None end.
Definition into_way (o : sobj) : option sway := match o with SWay w => Some w | _ => None end.
Definition into_relation (o : sobj) : option srel := match o with SRel r => Some r | _ => None end.

(** is_node / is_way / is_relation, src/lib.rs:570-578 *)
Definition is_node (o : sobj) : bool := objtype_eqb (s_type o) TNode.
Definition is_way (o : sobj) : bool := objtype_eqb (s_type o) TWay.
Definition is_relation (o : sobj) : bool := objtype_eqb (s_type o) TRelation.

(** ** Ways *)

(** is_closed, src/lib.rs:455-460 *)
Definition is_closed (w : sway) : bool :=
  match hd_error (sw_nodes w), hd_error (rev (sw_nodes w)) with
  | Some a, Some b => a =? b
  | _, _ => false
  end.

(** is_area, src/lib.rs:464-472 *)
Definition is_area (w : sway) : bool :=
  is_closed w &&
  negb (match tags_get (lit "area") (sw_tags w) with
        | Some v => str_eqb v (lit "no")
        | None => false
        end).

(** ** Mutation *)

(** The mutating methods of the traits.  The last three exist only on the
    concrete Node / Way / Relation types (reached from an object through
    as_node_mut etc.); on other kinds they are modelled as no-ops because no
    call is possible. *)
Inductive op :=
| SetId (v : Z)
| SetVersion (v : option Z)
| SetDeleted (v : bool)
| SetChangeset (v : option Z)
| SetTimestamp (v : option timestamp)
| SetUid (v : option Z)
| SetUser (v : option str)
| SetTag (k v : str)
| UnsetTag (k : str)
| StripMetadata
| SetLatLonDirect (v : option latlon)
| SetNodes (v : list Z)
| SetMembers (v : list member).

(** strip_metadata, src/lib.rs:364-368 *)
Definition mstrip (m : meta) : meta :=
  mset_changeset None (mset_user None (mset_uid None m)).

(** The effect of an operation on the metadata. *)
Definition meta_op (p : op) (m : meta) : meta :=
  match p with
  | SetId v => mset_id v m
  | SetVersion v => mset_version v m
  | SetDeleted v => mset_deleted v m
  | SetChangeset v => mset_changeset v m
  | SetTimestamp v => mset_timestamp v m
  | SetUid v => mset_uid v m
  | SetUser v => mset_user v m
  | StripMetadata => mstrip m
  | _ => m
  end.

(** The effect of an operation on a plain tag list. *)
Definition tags_op (p : op) (t : tags) : tags :=
  match p with
  | SetTag k v => tags_set k v t
  | UnsetTag k => tags_unset k t
  | _ => t
  end.

(** The effect of an operation on the optional tag list of an Arc/Rc node,
    src/obj_types/arc_types.rs:320-353. *)
Definition otags_op (p : op) (t : option tags) : option tags :=
  match p with
  | SetTag k v =>
      match t with
      | None => Some [(k, v)]
      | Some l => Some (tags_set k v l)
      end
  | UnsetTag k =>
      match t with
      | None => None
      | Some l => Some (tags_unset k l)
      end
  | _ => t
  end.

(** One mutating call on a String object, src/obj_types/string_types.rs:146-194, 373-381,
    483-486, 586-596. *)
Definition s_op (o : sobj) (p : op) : sobj :=
  match o with
  | SNode n => SNode (SN (meta_op p (sn_meta n)) (tags_op p (sn_tags n))
                        (match p with SetLatLonDirect v => v | _ => sn_latlon n end))
  | SWay w => SWay (SW (meta_op p (sw_meta w)) (tags_op p (sw_tags w))
                       (match p with SetNodes v => v | _ => sw_nodes w end))
  | SRel r => SRel (SR (meta_op p (sr_meta r)) (tags_op p (sr_tags r))
                       (match p with SetMembers v => v | _ => sr_members r end))
  end.

(** One mutating call on an Arc or Rc object, src/obj_types/arc_types.rs:97-164, 360-368,
    478-481, 587-598. *)
Definition a_op (o : aobj) (p : op) : aobj :=
  match o with
  | ANode n => ANode (AN (meta_op p (an_meta n)) (otags_op p (an_tags n))
                        (match p with SetLatLonDirect v => v | _ => an_latlon n end))
  | AWay w => AWay (AW (meta_op p (aw_meta w)) (tags_op p (aw_tags w))
                       (match p with SetNodes v => v | _ => aw_nodes w end))
  | ARel r => ARel (AR (meta_op p (ar_meta r)) (tags_op p (ar_tags r))
                       (match p with SetMembers v => v | _ => ar_members r end))
  end.

(** A sequence of mutating calls. *)
Definition s_ops (o : sobj) (ps : list op) : sobj := fold_left s_op ps o.
Definition a_ops (o : aobj) (ps : list op) : aobj := fold_left a_op ps o.

(** ** Conversions: src/obj_types/mod.rs *)

(** The defaults of the derived builders, src/obj_types/string_types.rs:26-98. *)
Definition default_meta (id : Z) : meta := Meta id None false None None None None.

(** From<RcNode>/From<ArcNode> for StringNode, src/obj_types/mod.rs:12-30, 87-105: builder
    default, then setters, then set_tag for each tag. *)
Definition snode_of_anode (n : anode) : snode :=
  let m := an_meta n in
  let m' := mset_user (m_user m) (mset_uid (m_uid m) (mset_timestamp (m_timestamp m)
             (mset_changeset (m_changeset m) (mset_deleted (m_deleted m)
             (mset_version (m_version m) (default_meta (m_id m))))))) in
  SN m' (fold_left (fun t '(k, v) => tags_set k v t) (a_tags (ANode n)) []) (an_latlon n).

(** From<RcWay>/From<ArcWay> for StringWay, src/obj_types/mod.rs:32-51, 107-126 *)
Definition sway_of_away (w : away) : sway :=
  let m := aw_meta w in
  let m' := mset_user (m_user m) (mset_uid (m_uid m) (mset_timestamp (m_timestamp m)
             (mset_changeset (m_changeset m) (mset_deleted (m_deleted m)
             (mset_version (m_version m) (default_meta (m_id m))))))) in
  SW m' (fold_left (fun t '(k, v) => tags_set k v t) (aw_tags w) []) (aw_nodes w).

(** From<RcRelation>/From<ArcRelation> for StringRelation, src/obj_types/mod.rs:53-75, 128-150 *)
Definition srel_of_arel (r : arel) : srel :=
  let m := ar_meta r in
  let m' := mset_user (m_user m) (mset_uid (m_uid m) (mset_timestamp (m_timestamp m)
             (mset_changeset (m_changeset m) (mset_deleted (m_deleted m)
             (mset_version (m_version m) (default_meta (m_id m))))))) in
  SR m' (fold_left (fun t '(k, v) => tags_set k v t) (ar_tags r) []) (ar_members r).

(** From<RcOSMObj>/From<ArcOSMObj> for StringOSMObj, src/obj_types/mod.rs:77-85, 152-160 *)
Definition sobj_of_aobj (o : aobj) : sobj :=
  match o with
  | ANode n => SNode (snode_of_anode n)
  | AWay w => SWay (sway_of_away w)
  | ARel r => SRel (srel_of_arel r)
  end.

(** ** Derived equality *)

Definition opt_eqb {A} (f : A -> A -> bool) (a b : option A) : bool :=
  match a, b with
  | Some x, Some y => f x y
  | None, None => true
  | _, _ => false
  end.

Fixpoint list_eqb {A} (f : A -> A -> bool) (a b : list A) : bool :=
  match a, b with
  | [], [] => true
  | x :: a', y :: b' => f x y && list_eqb f a' b'
  | _, _ => false
  end.

Definition tag_eqb (a b : str * str) : bool := str_eqb (fst a) (fst b) && str_eqb (snd a) (snd b).
Definition latlon_eqb (a b : latlon) : bool := (fst a =? fst b) && (snd a =? snd b).
Definition member_eqb (a b : member) : bool :=
  let '(t, i, r) := a in let '(t', i', r') := b in
  objtype_eqb t t' && (i =? i') && str_eqb r r'.

(** derive(PartialEq) on the structs: field by field, timestamps with their own
    equality (src/lib.rs:305-313). *)
Definition meta_eqb (a b : meta) : bool :=
  (m_id a =? m_id b) && opt_eqb Z.eqb (m_version a) (m_version b)
  && Bool.eqb (m_deleted a) (m_deleted b)
  && opt_eqb Z.eqb (m_changeset a) (m_changeset b)
  && opt_eqb timestamp_eqb (m_timestamp a) (m_timestamp b)
  && opt_eqb Z.eqb (m_uid a) (m_uid b)
  && opt_eqb str_eqb (m_user a) (m_user b).

(** src/obj_types/string_types.rs:26, 51, 75, 100 *)
Definition s_eqb (a b : sobj) : bool :=
  match a, b with
  | SNode x, SNode y => meta_eqb (sn_meta x) (sn_meta y) && list_eqb tag_eqb (sn_tags x) (sn_tags y)
                        && opt_eqb latlon_eqb (sn_latlon x) (sn_latlon y)
  | SWay x, SWay y => meta_eqb (sw_meta x) (sw_meta y) && list_eqb tag_eqb (sw_tags x) (sw_tags y)
                      && list_eqb Z.eqb (sw_nodes x) (sw_nodes y)
  | SRel x, SRel y => meta_eqb (sr_meta x) (sr_meta y) && list_eqb tag_eqb (sr_tags x) (sr_tags y)
                      && list_eqb member_eqb (sr_members x) (sr_members y)
  | _, _ => false
  end.

(** src/obj_types/arc_types.rs:25, 39, 53, 67 *)
Definition a_eqb (a b : aobj) : bool :=
  match a, b with
  | ANode x, ANode y => meta_eqb (an_meta x) (an_meta y)
                        && opt_eqb (list_eqb tag_eqb) (an_tags x) (an_tags y)
                        && opt_eqb latlon_eqb (an_latlon x) (an_latlon y)
  | AWay x, AWay y => meta_eqb (aw_meta x) (aw_meta y) && list_eqb tag_eqb (aw_tags x) (aw_tags y)
                      && list_eqb Z.eqb (aw_nodes x) (aw_nodes y)
  | ARel x, ARel y => meta_eqb (ar_meta x) (ar_meta y) && list_eqb tag_eqb (ar_tags x) (ar_tags y)
                      && list_eqb member_eqb (ar_members x) (ar_members y)
  | _, _ => false
  end.

(** ** Readers: provided methods of OSMReader (src/lib.rs:582-659) *)

(** Drain an iterator: call [next] until it returns None, as a [for] loop over
    objects() does (src/lib.rs:613-619, 680-689).  The fuel bounds the number of
    calls; [None] means the source did not end within it. *)
Fixpoint drain {St A} (next : St -> option A * St) (fuel : nat) (st : St) : option (list A) :=
  match fuel with
  | O => None
  | S f =>
      match next st with
      | (None, _) => Some []
      | (Some a, st') => opt_map (cons a) (drain next f st')
      end
  end.

(** nodes(), ways(), relations(): objects().filter_map(into_node) and so on,
    src/lib.rs:621-642.  [filtered_next] is the [next] of that adapter: it
    keeps pulling until an object of the kind or the end. *)
Fixpoint filtered_next {St A B} (next : St -> option A * St) (f : A -> option B) (fuel : nat)
    (st : St) : option (option B * St) :=
  match fuel with
  | O => None
  | S n =>
      match next st with
      | (None, st') => Some (None, st')
      | (Some a, st') =>
          match f a with
          | Some b => Some (Some b, st')
          | None => filtered_next next f n st'
          end
      end
  end.

(** Draining the filtered iterator. *)
Fixpoint drain_filtered {St A B} (next : St -> option A * St) (f : A -> option B) (fuel : nat)
    (st : St) : option (list B) :=
  match fuel with
  | O => None
  | S n =>
      match filtered_next next f fuel st with
      | None => None
      | Some (None, _) => Some []
      | Some (Some b, st') => opt_map (cons b) (drain_filtered next f n st')
      end
  end.
