(** What a changeset file means: specification side.  Names are compared without
    their namespace prefix. *)
From Coq Require Import String ZArith List Bool Lia.
From Verif Require Import Base Ints Timestamp Obj SpecJson Changesets.
Import ListNotations.
Open Scope Z_scope.

(** The local part of an XML name: what follows the first colon (58), or all of it. *)
Fixpoint prefix_length (s : str) : nat :=
  match s with [] => O | c :: r => if Z.eq_dec c 58 then O else S (prefix_length r) end.
Definition local_part (s : str) : str := if in_dec Z.eq_dec 58 s then skipn (S (prefix_length s)) s else s.

(** The raw value of the attribute with that local name. *)
Fixpoint raw_attr (l : list qattr) (k : string) : option str :=
  match l with
  | [] => None
  | AErr :: r => raw_attr r k
  | AOk key raw :: r => if str_eq_dec (local_part key) (lit k) then Some raw else raw_attr r k
  end.

(** Well-formed attributes: no syntax error, no local name twice. *)
Definition local_names (l : list qattr) : list str :=
  filter_map (fun a => match a with AOk key _ => Some (local_part key) | AErr => None end) l.
Definition proper (l : list qattr) : Prop := ~ In AErr l.
Definition distinct (l : list qattr) : Prop := NoDup (local_names l).

Section Spec.
Variable norm : str -> option str.

(** A text read as a value of some type: [None] if it is not one. *)
Definition value {A} (p : str -> option A) (raw : str) : option A := opt_bind (norm raw) p.

(** An attribute that must be there, and one that may be missing but must be
    right if it is there. *)
Definition required {A} (p : str -> option A) (o : option str) : option A :=
  match o with Some raw => p raw | None => None end.
Definition optional {A} (p : str -> option A) (o : option str) : option (option A) :=
  match o with Some raw => opt_map Some (p raw) | None => Some None end.

Definition bool_text (raw : str) : option bool :=
  if str_eq_dec raw (lit "true") then Some true
  else if str_eq_dec raw (lit "false") then Some false
  else None.

(** The tag an element stands for. *)
Definition tag_value (l : list qattr) : option (str * str) :=
  if existsb (fun a => match a with AErr => true | _ => false end) l then None else
  match required norm (raw_attr l "k"), required norm (raw_attr l "v") with
  | Some k, Some v => Some (k, v)
  | _, _ => None
  end.

(** The tag elements among some events. *)
Definition tag_attrs (e : qevent) : option (list qattr) :=
  match e with
  | QStart n a | QEmpty n a => if str_eq_dec (local_part n) (lit "tag") then Some a else None
  | _ => None
  end.
Definition tag_elements (body : list qevent) : list (list qattr) := filter_map tag_attrs body.

(** All or nothing. *)
Fixpoint sequence {A} (l : list (option A)) : option (list A) :=
  match l with
  | [] => Some []
  | Some a :: r => opt_map (cons a) (sequence r)
  | None :: _ => None
  end.

(** The changeset an element stands for; its tags are listed as in the file. *)
Definition changeset_value (l : list qattr) (body : list qevent) : option changeset :=
  if existsb (fun a => match a with AErr => true | _ => false end) l then None else
  match required (value parse_u32) (raw_attr l "id"),
        required norm (raw_attr l "created_at"),
        optional norm (raw_attr l "closed_at"),
        required bool_text (raw_attr l "open"),
        optional (value parse_i64) (raw_attr l "uid"),
        optional norm (raw_attr l "user"),
        required (value parse_u64) (raw_attr l "num_changes"),
        required (value parse_u64) (raw_attr l "comments_count"),
        sequence (map tag_value (tag_elements body))
  with
  | Some id, Some created, Some closed, Some open, Some uid, Some user, Some n, Some c, Some t =>
      Some (CS id (ISOString created) (opt_map ISOString closed) open uid user t n c)
  | _, _, _, _, _, _, _, _, _ => None
  end.

(** ** Files *)

(** A piece of a changeset file: an event that belongs to no changeset, an empty
    changeset element, a changeset element with content. *)
Inductive part :=
| Noise (e : qevent)
| CEmpty (name : str) (attrs : list qattr)
| CFull (name : str) (attrs : list qattr) (body : list qevent) (close : str).

Definition render (p : part) : list qitem :=
  match p with
  | Noise e => [QEv e]
  | CEmpty n a => [QEv (QEmpty n a)]
  | CFull n a body close => QEv (QStart n a) :: map QEv body ++ [QEv (QEnd close)]
  end.
Definition file (ps : list part) : list qitem := flat_map render ps.

(** An event that is not about an element of that name. *)
Definition not_about (k : string) (e : qevent) : Prop :=
  match e with
  | QStart n _ | QEmpty n _ | QEnd n => local_part n <> lit k
  | QOther => True
  end.

Definition tag_distinct (body : list qevent) : Prop := Forall distinct (tag_elements body).

(** Well-formed pieces: names fit, no changeset inside a changeset, no attribute
    twice in one element. *)
Definition wf_part (p : part) : Prop :=
  match p with
  | Noise e => not_about "changeset" e
  | CEmpty n a => local_part n = lit "changeset" /\ distinct a
  | CFull n a body close =>
      local_part n = lit "changeset" /\ local_part close = lit "changeset"
      /\ distinct a /\ Forall (not_about "changeset") body /\ tag_distinct body
  end.

(** What the pieces stand for: nothing, a changeset, or something wrong. *)
Definition part_value (p : part) : option (option changeset) :=
  match p with
  | Noise _ => None
  | CEmpty _ a => Some (changeset_value a [])
  | CFull _ a body _ => Some (changeset_value a body)
  end.
Definition file_value (ps : list part) : list (option changeset) := filter_map part_value ps.

(** [c] is the changeset [d] with its tags as a map: for every key the last
    value. *)
Definition as_map (d c : changeset) : Prop :=
  cs_id c = cs_id d /\ cs_created c = cs_created d /\ cs_closed c = cs_closed d
  /\ cs_open c = cs_open d /\ cs_uid c = cs_uid d /\ cs_user c = cs_user d
  /\ cs_num_changes c = cs_num_changes d /\ cs_comments_count c = cs_comments_count d
  /\ (forall k, cs_tag c k = last_value (cs_tags d) k)
  /\ NoDup (map fst (cs_tags c)).

(** The reply for a piece: the changeset, or an error if the piece is wrong. *)
Definition replies (d : option changeset) (r : reply changeset) : Prop :=
  match d, r with
  | Some d, Item c => as_map d c
  | None, Error => True
  | _, _ => False
  end.

End Spec.

(** Repeated calls of next: the replies up to the first End.  [step s r s']: in
    state [s] a call returns [r] and leaves [s']. *)
Inductive Replies {St A} (step : St -> reply A -> St -> Prop) : St -> list (reply A) -> Prop :=
| Replies_end s s' : step s End s' -> Replies step s []
| Replies_item s a s' l : step s (Item a) s' -> Replies step s' l -> Replies step s (Item a :: l)
| Replies_error s s' l : step s Error s' -> Replies step s' l -> Replies step s (Error :: l).

(** A call of ChangesetReader::next that returns; a call of
    ChangesetTagReader::next. *)
Definition cs_step norm (s : list qitem) (r : reply changeset) (s' : list qitem) : Prop :=
  exists fuel, next_changeset norm fuel s = Done (r, s').
Definition tr_step norm (s : tagreader) (r : reply (Z * tags)) (s' : tagreader) : Prop :=
  tr_next norm s = (r, s').

(** ** Where reading gets stuck *)

Section Stuck.
Variable norm : str -> option str.

(** Attributes without syntax error in which every known attribute has a value
    of the right form. *)
Definition readable (l : list qattr) : Prop :=
  proper l
  /\ optional (value norm parse_u32) (raw_attr l "id") <> None
  /\ optional norm (raw_attr l "created_at") <> None
  /\ optional norm (raw_attr l "closed_at") <> None
  /\ optional bool_text (raw_attr l "open") <> None
  /\ optional (value norm parse_i64) (raw_attr l "uid") <> None
  /\ optional norm (raw_attr l "user") <> None
  /\ optional (value norm parse_u64) (raw_attr l "num_changes") <> None
  /\ optional (value norm parse_u64) (raw_attr l "comments_count") <> None.

(** An event that does not start a changeset. *)
Definition no_start (e : qevent) : Prop :=
  match e with
  | QStart n _ | QEmpty n _ => local_part n <> lit "changeset"
  | _ => True
  end.
(** An event that does not close a changeset. *)
Definition no_close (e : qevent) : Prop :=
  match e with QEnd n => local_part n <> lit "changeset" | _ => True end.

(** The input ends inside a changeset: after some events there is the start of a
    changeset, then only events that do not close it, with proper tags, and then
    the input is over. *)
Definition ends_inside (l : list qitem) : Prop :=
  exists pre n a body,
    l = map QEv pre ++ QEv (QStart n a) :: map QEv body
    /\ Forall no_start pre
    /\ local_part n = lit "changeset" /\ readable a
    /\ Forall no_close body
    /\ Forall (fun t => tag_value norm t <> None) (tag_elements body).

(** No local attribute name twice in one element. *)
Definition item_distinct (i : qitem) : Prop :=
  match i with QEv (QStart _ a) | QEv (QEmpty _ a) => distinct a | _ => True end.

(** ** The tag reader *)

(** The id of a changeset element as the tag reader takes it. *)
Definition own_id (l : list qattr) : option Z := required (value norm parse_u64) (raw_attr l "id").

Definition good_tags (body : list qevent) : tags := filter_map (tag_value norm) (tag_elements body).
Definition bad_tags (body : list qevent) : nat :=
  length (filter (fun a => negb (is_some (tag_value norm a))) (tag_elements body)).

(** Pieces the tag reader can attribute: tag elements only inside changesets,
    and every changeset with content has proper attributes and an id. *)
Definition tr_part (p : part) : Prop :=
  match p with
  | Noise e => not_about "tag" e
  | CEmpty _ _ => True
  | CFull _ a _ _ => proper a /\ own_id a <> None
  end.

(** What the tag reader says about a piece: nothing about noise and empty
    changesets; for a changeset with content one error for each bad tag, then its
    id and its good tags. *)
Definition tr_value (p : part) : list (reply (Z * tags)) :=
  match p with
  | CFull _ a body _ =>
      match own_id a with
      | Some i => repeat Error (bad_tags body) ++ [Item (i, good_tags body)]
      | None => []
      end
  | _ => []
  end.

End Stuck.
