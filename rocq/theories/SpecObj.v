(** Specification vocabulary for objects, independent of the model's tag lists. *)
From Coq Require Import String ZArith List Bool.
From Verif Require Import Base Timestamp Obj.
Import ListNotations.
Open Scope Z_scope.

(** What a key's value should be after a history of calls, given what it was
    before: the last set_tag or unset_tag for that key decides. *)
Definition tag_effect (k : str) (cur : option str) (p : op) : option str :=
  match p with
  | SetTag k' v => if str_eq_dec k' k then Some v else cur
  | UnsetTag k' => if str_eq_dec k' k then None else cur
  | _ => cur
  end.
Definition expected_tag (ps : list op) (k : str) : option str := fold_left (tag_effect k) ps None.

(** The observable fields of an object. *)
Inductive field :=
| FId | FVersion | FDeleted | FChangeset | FTimestamp | FUid | FUser
| FTags | FLatLon | FNodes | FMembers | FType.

Inductive fieldval :=
| VZ (v : Z) | VOptZ (v : option Z) | VBool (v : bool) | VTime (v : option timestamp)
| VOptStr (v : option str) | VTags (v : list (str * str)) | VLatLon (v : option latlon)
| VNodes (v : list Z) | VMembers (v : list member) | VType (v : objtype)
| VNone.

(** What the getter for a field returns ([VNone]: the kind has no such getter). *)
Definition s_get (o : sobj) (f : field) : fieldval :=
  match f with
  | FId => VZ (m_id (s_meta o))
  | FVersion => VOptZ (m_version (s_meta o))
  | FDeleted => VBool (m_deleted (s_meta o))
  | FChangeset => VOptZ (m_changeset (s_meta o))
  | FTimestamp => VTime (m_timestamp (s_meta o))
  | FUid => VOptZ (m_uid (s_meta o))
  | FUser => VOptStr (m_user (s_meta o))
  | FTags => VTags (s_tags o)
  | FLatLon => match o with SNode n => VLatLon (sn_latlon n) | _ => VNone end
  | FNodes => match o with SWay w => VNodes (sw_nodes w) | _ => VNone end
  | FMembers => match o with SRel r => VMembers (sr_members r) | _ => VNone end
  | FType => VType (s_type o)
  end.

Definition a_get (o : aobj) (f : field) : fieldval :=
  match f with
  | FId => VZ (m_id (a_meta o))
  | FVersion => VOptZ (m_version (a_meta o))
  | FDeleted => VBool (m_deleted (a_meta o))
  | FChangeset => VOptZ (m_changeset (a_meta o))
  | FTimestamp => VTime (m_timestamp (a_meta o))
  | FUid => VOptZ (m_uid (a_meta o))
  | FUser => VOptStr (m_user (a_meta o))
  | FTags => VTags (a_tags o)
  | FLatLon => match o with ANode n => VLatLon (an_latlon n) | _ => VNone end
  | FNodes => match o with AWay w => VNodes (aw_nodes w) | _ => VNone end
  | FMembers => match o with ARel r => VMembers (ar_members r) | _ => VNone end
  | FType => VType (a_type o)
  end.

(** The fields a call is meant to change, with the value each must get.  For
    the tag calls the value is specified separately. *)
Definition writes (t : objtype) (p : op) : list (field * option fieldval) :=
  match p with
  | SetId v => [(FId, Some (VZ v))]
  | SetVersion v => [(FVersion, Some (VOptZ v))]
  | SetDeleted v => [(FDeleted, Some (VBool v))]
  | SetChangeset v => [(FChangeset, Some (VOptZ v))]
  | SetTimestamp v => [(FTimestamp, Some (VTime v))]
  | SetUid v => [(FUid, Some (VOptZ v))]
  | SetUser v => [(FUser, Some (VOptStr v))]
  | SetTag _ _ | UnsetTag _ => [(FTags, None)]
  | StripMetadata => [(FUid, Some (VOptZ None)); (FUser, Some (VOptStr None));
                      (FChangeset, Some (VOptZ None))]
  | SetLatLonDirect v => match t with TNode => [(FLatLon, Some (VLatLon v))] | _ => [] end
  | SetNodes v => match t with TWay => [(FNodes, Some (VNodes v))] | _ => [] end
  | SetMembers v => match t with TRelation => [(FMembers, Some (VMembers v))] | _ => [] end
  end.

(** First / last element. *)
Definition first_is {A} (l : list A) (a : A) : Prop := exists r, l = a :: r.
Definition last_is {A} (l : list A) (a : A) : Prop := exists r, l = r ++ [a].
