(** Changeset dumps: src/changesets.rs, over the events of the quick-xml
    reader. *)
From Coq Require Import String ZArith List Bool Lia.
From Verif Require Import Base Ints Timestamp Obj.
Import ListNotations.
Open Scope Z_scope.

(** ** quick-xml *)

(** An item of BytesStart::attributes(): a syntax error (or a repeated name), or
    a name and the raw value between the quotes. *)
Inductive qattr := AErr | AOk (key raw : str).

(** quick_xml::events::Event, as far as the readers distinguish: Start, Empty,
    End, and everything else (Text, CData, Comment, Decl, PI, DocType,
    GeneralRef). *)
Inductive qevent :=
| QStart (name : str) (attrs : list qattr)
| QEmpty (name : str) (attrs : list qattr)
| QEnd (name : str)
| QOther.

(** What read_event_into returns, call after call: an event or an error.  The
    state of a reader is the list of what it still has to return; after the last
    item it returns Eof for ever. *)
Inductive qitem := QEv (e : qevent) | QErr.

(** QName::local_name: what follows the first colon, if there is one. *)
Fixpoint after_colon (s : str) : option str :=
  match s with
  | [] => None
  | c :: r => if c =? 58 then Some r else after_colon r
  end.
Definition local_name (s : str) : str := match after_colon s with Some r => r | None => s end.
Definition local_is (s : str) (n : string) : bool := str_eqb (local_name s) (lit n).

(** ** Changesets *)

(** Changeset, src/changesets.rs:33-50.  created and closed are always the
    ISOString variant.  The HashMap is modelled by its entries. *)
Record changeset := CS {
  cs_id : Z;
  cs_created : timestamp;
  cs_closed : option timestamp;
  cs_open : bool;
  cs_uid : option Z;
  cs_user : option str;
  cs_tags : tags;
  cs_num_changes : Z;
  cs_comments_count : Z
}.

(** tag, has_tag, num_tags, untagged, tagged: src/changesets.rs:52-70 *)
Definition cs_tag (c : changeset) (key : str) : option str := tags_get key (cs_tags c).
Definition cs_has_tag (c : changeset) (key : str) : bool := is_some (cs_tag c key).
Definition cs_num_tags (c : changeset) : nat := length (cs_tags c).
Definition cs_untagged (c : changeset) : bool := Nat.eqb (cs_num_tags c) 0.
Definition cs_tagged (c : changeset) : bool := negb (cs_untagged c).

(** ChangesetBuilder (derive_builder): one option per field; the tags are given
    at the end. *)
Record builder := B {
  b_id : option Z;
  b_created : option timestamp;
  b_closed : option timestamp;
  b_open : option bool;
  b_uid : option Z;
  b_user : option str;
  b_num_changes : option Z;
  b_comments_count : option Z
}.
Definition builder0 : builder := B None None None None None None None None.

(** ChangesetBuilder::build: an error if a field without default is missing. *)
Definition build (b : builder) (t : tags) : option changeset :=
  match b_id b, b_created b, b_open b, b_num_changes b, b_comments_count b with
  | Some id, Some created, Some open, Some n, Some c =>
      Some (CS id created (b_closed b) open (b_uid b) (b_user b) t n c)
  | _, _, _, _, _ => None
  end.

(** What a Rust call that may loop for ever does within a number of steps. *)
Inductive run (A : Type) := Out | Done (a : A).
Arguments Out {A}. Arguments Done {A} a.

(** What Iterator::next returns: an item, an error or the end. *)
Inductive reply (A : Type) := Item (a : A) | Error | End.
Arguments Item {A} a. Arguments Error {A}. Arguments End {A}.

Section Reader.

(** Attribute::normalized_value: resolves references and normalises white
    space; an error for a bad reference or text that is not UTF-8. *)
Variable norm : str -> option str.

(** One attribute of a changeset element, src/changesets.rs:122-166 (and the
    copy 222-266). *)
Definition set_attr (b : builder) (key raw : str) : option builder :=
  if local_is key "id" then
    opt_bind (opt_bind (norm raw) parse_u32) (fun v =>
    Some (B (Some v) (b_created b) (b_closed b) (b_open b) (b_uid b) (b_user b) (b_num_changes b) (b_comments_count b)))
  else if local_is key "created_at" then
    opt_bind (norm raw) (fun v =>
    Some (B (b_id b) (Some (ISOString v)) (b_closed b) (b_open b) (b_uid b) (b_user b) (b_num_changes b) (b_comments_count b)))
  else if local_is key "closed_at" then
    opt_bind (norm raw) (fun v =>
    Some (B (b_id b) (b_created b) (Some (ISOString v)) (b_open b) (b_uid b) (b_user b) (b_num_changes b) (b_comments_count b)))
  else if local_is key "open" then
    opt_bind (if str_eqb raw (lit "true") then Some true
              else if str_eqb raw (lit "false") then Some false else None) (fun v =>
    Some (B (b_id b) (b_created b) (b_closed b) (Some v) (b_uid b) (b_user b) (b_num_changes b) (b_comments_count b)))
  else if local_is key "user" then
    opt_bind (norm raw) (fun v =>
    Some (B (b_id b) (b_created b) (b_closed b) (b_open b) (b_uid b) (Some v) (b_num_changes b) (b_comments_count b)))
  else if local_is key "uid" then
    opt_bind (opt_bind (norm raw) parse_i64) (fun v =>
    Some (B (b_id b) (b_created b) (b_closed b) (b_open b) (Some v) (b_user b) (b_num_changes b) (b_comments_count b)))
  else if local_is key "num_changes" then
    opt_bind (opt_bind (norm raw) parse_u64) (fun v =>
    Some (B (b_id b) (b_created b) (b_closed b) (b_open b) (b_uid b) (b_user b) (Some v) (b_comments_count b)))
  else if local_is key "comments_count" then
    opt_bind (opt_bind (norm raw) parse_u64) (fun v =>
    Some (B (b_id b) (b_created b) (b_closed b) (b_open b) (b_uid b) (b_user b) (b_num_changes b) (Some v)))
  else Some b.

(** The attribute loop, src/changesets.rs:120-168 and 220-268; [None]: the
    function returns an error. *)
Fixpoint take_attrs (b : builder) (l : list qattr) : option builder :=
  match l with
  | [] => Some b
  | AErr :: _ => None
  | AOk key raw :: r => opt_bind (set_attr b key raw) (fun b' => take_attrs b' r)
  end.

(** The attributes of a tag element, src/changesets.rs:184-205 and 375-394. *)
Fixpoint take_kv (k v : option str) (l : list qattr) : option (option str * option str) :=
  match l with
  | [] => Some (k, v)
  | AErr :: _ => None
  | AOk key raw :: r =>
      if local_is key "k" then opt_bind (norm raw) (fun x => take_kv (Some x) v r)
      else if local_is key "v" then opt_bind (norm raw) (fun x => take_kv k (Some x) r)
      else take_kv k v r
  end.
Definition read_tag (l : list qattr) : option (str * str) :=
  match take_kv None None l with
  | Some (Some k, Some v) => Some (k, v)
  | _ => None
  end.

(** The tag loop inside a changeset element, src/changesets.rs:171-210.  Eof is
    one of the events that "continue" the loop. *)
Fixpoint tags_loop (fuel : nat) (t : tags) (l : list qitem) : run (option tags * list qitem) :=
  match fuel with
  | O => Out
  | S f =>
      match l with
      | [] => tags_loop f t []
      | QErr :: r => Done (None, r)
      | QEv e :: r =>
          match e with
          | QEnd n => if local_is n "changeset" then Done (Some t, r) else tags_loop f t r
          | QStart n a | QEmpty n a =>
              if local_is n "tag" then
                match read_tag a with
                | Some (k, v) => tags_loop f (tags_set k v t) r
                | None => Done (None, r)
                end
              else tags_loop f t r
          | QOther => tags_loop f t r
          end
      end
  end.

(** The reply for a builder whose element has been read. *)
Definition built (b : builder) (t : tags) : reply changeset :=
  match build b t with Some c => Item c | None => Error end.

(** next_changeset (and Iterator::next), src/changesets.rs:107-292. *)
Fixpoint next_changeset (fuel : nat) (l : list qitem) : run (reply changeset * list qitem) :=
  match fuel with
  | O => Out
  | S f =>
      match l with
      | [] => Done (End, [])
      | QErr :: r => Done (Error, r)
      | QEv e :: r =>
          match e with
          | QStart n a =>
              if local_is n "changeset" then
                match take_attrs builder0 a with
                | None => Done (Error, r)
                | Some b =>
                    match tags_loop f [] r with
                    | Out => Out
                    | Done (None, r') => Done (Error, r')
                    | Done (Some t, r') => Done (built b t, r')
                    end
                end
              else next_changeset f r
          | QEmpty n a =>
              if local_is n "changeset" then
                match take_attrs builder0 a with
                | None => Done (Error, r)
                | Some b => Done (built b [], r)
                end
              else next_changeset f r
          | _ => next_changeset f r
          end
      end
  end.

(** ** ChangesetTagReader *)

(** ChangesetTagReader, src/changesets.rs:316-338 *)
Record tagreader := TR { tr_id : option Z; tr_tags : tags; tr_items : list qitem }.
Definition tr_new (l : list qitem) : tagreader := TR None [] l.

(** The id attribute, src/changesets.rs:360-366. *)
Fixpoint take_id (cur : option Z) (l : list qattr) : option Z * bool :=
  match l with
  | [] => (cur, true)
  | AErr :: _ => (cur, false)
  | AOk key raw :: r =>
      if local_is key "id" then
        match opt_bind (norm raw) parse_u64 with
        | Some v => take_id (Some v) r
        | None => (cur, false)
        end
      else take_id cur r
  end.

(** next_tag (and Iterator::next), src/changesets.rs:342-407. *)
Fixpoint next_tag (cur : option Z) (t : tags) (l : list qitem) : reply (Z * tags) * tagreader :=
  match l with
  | [] => (End, TR cur t [])
  | QErr :: r => (Error, TR cur t r)
  | QEv e :: r =>
      match e with
      | QEnd n =>
          if local_is n "changeset" then
            match cur with
            | Some i => (Item (i, t), TR cur [] r)
            | None => (Error, TR cur t r)
            end
          else next_tag cur t r
      | QStart n a =>
          if local_is n "changeset" then
            match take_id cur a with
            | (cur', true) => next_tag cur' [] r
            | (cur', false) => (Error, TR cur' t r)
            end
          else if local_is n "tag" then
            match read_tag a with
            | Some kv => next_tag cur (t ++ [kv]) r
            | None => (Error, TR cur t r)
            end
          else next_tag cur t r
      | QEmpty n a =>
          if local_is n "tag" then
            match read_tag a with
            | Some kv => next_tag cur (t ++ [kv]) r
            | None => (Error, TR cur t r)
            end
          else next_tag cur t r
      | QOther => next_tag cur t r
      end
  end.
Definition tr_next (s : tagreader) : reply (Z * tags) * tagreader :=
  next_tag (tr_id s) (tr_tags s) (tr_items s).

End Reader.
