(** The Debug texts of objects: derive(Debug) in src/obj_types and src/lib.rs, and the
    program osmio-osc-debug. *)
From Coq Require Import String ZArith List Bool Lia.
From Verif Require Import Base Ints Timestamp Obj CoordDebug.
Import ListNotations.
Open Scope Z_scope.

(** What derive(Debug) and the Debug of the standard library's types hand to the
    formatter: a number or a word; a text; debug_struct, debug_tuple (also for the
    tuples themselves, without a name) and debug_list with their entries, each with the
    name of the field ([[]] for tuples and lists).  SmallVec and Vec are lists; SmolStr,
    String, Arc<str> and Rc<str> are texts.  Tuples of one element without a name, for
    which Rust prints an extra comma, do not occur. *)
Inductive kind := KStruct | KTuple | KList.
Inductive dv :=
| DAtom (s : str)
| DText (s : str)
| DGroup (k : kind) (name : str) (items : list (str * dv)).

Section Debug.

(** Which characters core prints as they are (char::is_printable and not
    grapheme-extending): a table of core, any set here. *)
Variable printable : char -> bool.

(** Hexadecimal digits, lower case, without leading zeroes. *)
Definition hexchar (d : Z) : char := if d <? 10 then 48 + d else 87 + d.
Fixpoint hex (fuel : nat) (n : Z) : str :=
  match fuel with
  | O => []
  | S f => (if n <? 16 then [] else hex f (n / 16)) ++ [hexchar (n mod 16)]
  end.

(** char::escape_debug_ext, as the Debug of str calls it (double quotes escaped, single
    quotes not). *)
Definition escape (c : char) : str :=
  if c =? 0 then lit "\0"
  else if c =? 9 then lit "\t"
  else if c =? 13 then lit "\r"
  else if c =? 10 then lit "\n"
  else if c =? 92 then [92; 92]
  else if c =? 34 then [92; 34]
  else if printable c then [c]
  else lit "\u{" ++ hex 6 c ++ lit "}".

(** Debug of str. *)
Definition quoted (s : str) : str := [34] ++ flat_map escape s ++ [34].

(** The name of a field. *)
Definition label (l : str) : str := match l with [] => [] | _ => l ++ lit ": " end.

(** [{:?}], core::fmt::builders without the alternate flag. *)
Definition opens (k : kind) : str := match k with KStruct => lit " { " | KTuple => lit "(" | KList => lit "[" end.
Definition closes (k : kind) : str := match k with KStruct => lit " }" | KTuple => lit ")" | KList => lit "]" end.
Definition commas (l : list str) : str :=
  match l with [] => [] | x :: r => x ++ flat_map (fun y => lit ", " ++ y) r end.
Fixpoint compact (d : dv) : str :=
  match d with
  | DAtom s => s
  | DText s => quoted s
  | DGroup k name items =>
      match k, items with
      | KStruct, [] | KTuple, [] => name
      | _, _ => name ++ opens k ++ commas (map (fun it : str * dv => let (l, v) := it in label l ++ compact v) items) ++ closes k
      end
  end.

(** [PadAdapter] of core::fmt::builders: four spaces before the first character of each
    line. *)
Fixpoint pad (start : bool) (s : str) : str :=
  match s with
  | [] => []
  | c :: r => (if start then lit "    " else []) ++ c :: pad (c =? 10) r
  end.

(** [{:#?}], core::fmt::builders with the alternate flag. *)
Definition opens_line (k : kind) : str := match k with KStruct => lit " {" | KTuple => lit "(" | KList => lit "[" end ++ [10].
Definition closes_line (k : kind) : str := match k with KStruct => lit "}" | KTuple => lit ")" | KList => lit "]" end.
Fixpoint pretty (d : dv) : str :=
  match d with
  | DAtom s => s
  | DText s => quoted s
  | DGroup k name items =>
      match k, items with
      | KStruct, [] | KTuple, [] => name
      | KList, [] => name ++ lit "[]"
      | _, _ => name ++ opens_line k
                ++ pad true (flat_map (fun it : str * dv => let (l, v) := it in label l ++ pretty v ++ [44; 10]) items) ++ closes_line k
      end
  end.

(** ** The values *)

(** i64, u32 *)
Definition d_int (n : Z) : dv := DAtom (show_int n).
Definition d_bool (b : bool) : dv := DAtom (if b then lit "true" else lit "false").
Definition d_option {A} (f : A -> dv) (o : option A) : dv :=
  match o with None => DAtom (lit "None") | Some x => DGroup KTuple (lit "Some") [([], f x)] end.
Definition d_list {A} (f : A -> dv) (l : list A) : dv := DGroup KList [] (map (fun x => ([], f x)) l).
(** Debug of Lat and Lon, src/lib.rs:136-141. *)
Definition d_coord (i : Z) : dv := DAtom (debug_coord i).
(** (Lat, Lon) *)
Definition d_latlon (p : latlon) : dv := DGroup KTuple [] [([], d_coord (fst p)); ([], d_coord (snd p))].
Definition d_tag (t : str * str) : dv := DGroup KTuple [] [([], DText (fst t)); ([], DText (snd t))].
(** Debug of OSMObjectType, src/lib.rs:512-516. *)
Definition d_objtype (t : objtype) : dv := DAtom [name_short t].
Definition d_member (m : member) : dv :=
  let '(t, i, r) := m in DGroup KTuple [] [([], d_objtype t); ([], d_int i); ([], DText r)].
(** derive(Debug) on TimestampFormat, src/lib.rs:248-252. *)
Definition d_timestamp (t : timestamp) : dv :=
  match t with
  | ISOString s => DGroup KTuple (lit "ISOString") [([], DText s)]
  | EpochNumber n => DGroup KTuple (lit "EpochNumber") [([], d_int n)]
  end.

(** The fields all objects begin with, src/obj_types/string_types.rs:29-42,
    src/obj_types/arc_types.rs:27-33, src/obj_types/rc_types.rs:27-33. *)
Definition d_meta (m : meta) : list (str * dv) :=
  [(lit "_id", d_int (m_id m)); (lit "_version", d_option d_int (m_version m)); (lit "_deleted", d_bool (m_deleted m));
   (lit "_changeset_id", d_option d_int (m_changeset m)); (lit "_timestamp", d_option d_timestamp (m_timestamp m));
   (lit "_uid", d_option d_int (m_uid m)); (lit "_user", d_option DText (m_user m))].

(** derive(Debug) on StringNode, StringWay, StringRelation and StringOSMObj,
    src/obj_types/string_types.rs:26-105. *)
Definition d_sobj (o : sobj) : dv :=
  match o with
  | SNode n => DGroup KTuple (lit "Node") [([], DGroup KStruct (lit "StringNode")
      (d_meta (sn_meta n) ++ [(lit "_tags", d_list d_tag (sn_tags n)); (lit "_lat_lon", d_option d_latlon (sn_latlon n))]))]
  | SWay w => DGroup KTuple (lit "Way") [([], DGroup KStruct (lit "StringWay")
      (d_meta (sw_meta w) ++ [(lit "_tags", d_list d_tag (sw_tags w)); (lit "_nodes", d_list d_int (sw_nodes w))]))]
  | SRel r => DGroup KTuple (lit "Relation") [([], DGroup KStruct (lit "StringRelation")
      (d_meta (sr_meta r) ++ [(lit "_tags", d_list d_tag (sr_tags r)); (lit "_members", d_list d_member (sr_members r))]))]
  end.

(** derive(Debug) on the Arc objects, src/obj_types/arc_types.rs:25-72 ([ty] is Arc), and
    the Rc objects, src/obj_types/rc_types.rs:25-72 ([ty] is Rc). *)
Definition d_aobj (ty : str) (o : aobj) : dv :=
  match o with
  | ANode n => DGroup KTuple (lit "Node") [([], DGroup KStruct (ty ++ lit "Node")
      (d_meta (an_meta n) ++ [(lit "_tags", d_option (d_list d_tag) (an_tags n)); (lit "_lat_lon", d_option d_latlon (an_latlon n))]))]
  | AWay w => DGroup KTuple (lit "Way") [([], DGroup KStruct (ty ++ lit "Way")
      (d_meta (aw_meta w) ++ [(lit "_tags", d_list d_tag (aw_tags w)); (lit "_nodes", d_list d_int (aw_nodes w))]))]
  | ARel r => DGroup KTuple (lit "Relation") [([], DGroup KStruct (ty ++ lit "Relation")
      (d_meta (ar_meta r) ++ [(lit "_tags", d_list d_tag (ar_tags r)); (lit "_members", d_list d_member (ar_members r))]))]
  end.

(** main, src/bin/osmio-osc-debug.rs:9-17, from the objects the reader returns: dbg!
    writes the place in the source ([place], fixed by the compiler), the expression and
    the object with [{:#?}] to standard error.  What a panic of the reader then adds
    there is not included; opening the file is not modelled. *)
Definition osc_debug (place : str) (os : list sobj) : str :=
  flat_map (fun o => lit "[" ++ place ++ lit "] o = " ++ pretty (d_sobj o) ++ [10]) os.

End Debug.
