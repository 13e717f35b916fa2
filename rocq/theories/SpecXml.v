(** What XML and OSC documents look like: specification side. *)
From Coq Require Import String ZArith List Bool Lia.
From Verif Require Import Base Ints Timestamp Obj Coord.
Import ListNotations.
Open Scope Z_scope.

(** ** Escaped text *)

(** The five predefined entities of XML. *)
Inductive Entity : str -> char -> Prop :=
| Ent_amp : Entity (lit "amp") (chr "&")
| Ent_lt : Entity (lit "lt") (chr "<")
| Ent_gt : Entity (lit "gt") (chr ">")
| Ent_quot : Entity (lit "quot") 34
| Ent_apos : Entity (lit "apos") (chr "'").

(** [Resolves t s]: [t] is a text in which every '&' starts one of the
    predefined entities, and it stands for [s]. *)
Inductive Resolves : str -> str -> Prop :=
| R_nil : Resolves [] []
| R_char c t s : c <> chr "&" -> Resolves t s -> Resolves (c :: t) (c :: s)
| R_ent name c t s : Entity name c -> Resolves t s ->
    Resolves (lit "&" ++ name ++ lit ";" ++ t) (c :: s).

(** No character that could end an attribute value or start markup. *)
Definition inert (t : str) : Prop :=
  Forall (fun c => c <> chr "<" /\ c <> chr ">" /\ c <> 34 /\ c <> chr "'") t.

(** The escaped form of a string. *)
Definition esc_char (c : char) : str :=
  if c =? chr "&" then lit "&amp;"
  else if c =? 34 then lit "&quot;"
  else if c =? chr "'" then lit "&apos;"
  else if c =? chr "<" then lit "&lt;"
  else if c =? chr ">" then lit "&gt;"
  else [c].
Definition esc (s : str) : str := flat_map esc_char s.

(** ** Elements *)

(** name="text", with a leading space. *)
Definition attr_text (a : str * str) : str := lit " " ++ fst a ++ lit "=" ++ [34] ++ snd a ++ [34].
Definition attrs_text (l : list (str * str)) : str := flat_map attr_text l.

Definition opt_list {A B} (o : option A) (f : A -> list B) : list B :=
  match o with Some a => f a | None => [] end.

(** The attributes of an object's element, in order, with the text between the
    quotes.  [q] is how free text is put there (timestamps are written as they
    are). *)
Definition obj_attrs (q : str -> str) (o : sobj) : list (str * str) :=
  let m := s_meta o in
  [(lit "id", show_int (m_id m));
   (lit "visible", if m_deleted m then lit "false" else lit "true")]
  ++ opt_list (m_version m) (fun v => [(lit "version", show_uint v)])
  ++ opt_list (m_user m) (fun u => [(lit "user", q u)])
  ++ opt_list (m_uid m) (fun u => [(lit "uid", show_uint u)])
  ++ opt_list (m_changeset m) (fun c => [(lit "changeset", show_uint c)])
  ++ opt_list (m_timestamp m) (fun t => [(lit "timestamp", to_iso_string t)])
  ++ match o with
     | SNode n => opt_list (sn_latlon n) (fun '(lat, lon) =>
                    [(lit "lat", show_coord lat); (lit "lon", show_coord lon)])
     | _ => []
     end.

(** The child elements: node references, then members, then tags. *)
Definition nd_attrs (i : Z) : list (str * str) := [(lit "ref", show_int i)].
Definition member_attrs (q : str -> str) (m : member) : list (str * str) :=
  let '(t, i, role) := m in
  [(lit "type", name_long t); (lit "ref", show_int i); (lit "role", q role)].
Definition tag_attrs (q : str -> str) (t : str * str) : list (str * str) :=
  [(lit "k", q (fst t)); (lit "v", q (snd t))].

Definition obj_nds (o : sobj) : list Z := match o with SWay w => sw_nodes w | _ => [] end.
Definition obj_members (o : sobj) : list member := match o with SRel r => sr_members r | _ => [] end.

(** An empty child element on its own line; [e] is the text that ends it. *)
Definition child_text (name : str) (l : list (str * str)) (e : str) : str :=
  [10; 9; 9] ++ lit "<" ++ name ++ attrs_text l ++ e.

Definition children_text (o : sobj) : str :=
  flat_map (fun i => child_text (lit "nd") (nd_attrs i) (lit " />")) (obj_nds o)
  ++ flat_map (fun m => child_text (lit "member") (member_attrs esc m) (lit "/>")) (obj_members o)
  ++ flat_map (fun t => child_text (lit "tag") (tag_attrs esc t) (lit " />")) (s_tags o).

(** Nodes without tags are empty elements. *)
Definition short_form (o : sobj) : bool :=
  match o with SNode n => match sn_tags n with [] => true | _ => false end | _ => false end.

Definition obj_text (o : sobj) : str :=
  [10; 9] ++ lit "<" ++ name_long (s_type o) ++ attrs_text (obj_attrs esc o)
  ++ (if short_form o then lit " />"
      else lit ">" ++ children_text o ++ [10; 9] ++ lit "</" ++ name_long (s_type o) ++ lit ">").

(** ** Documents *)

Definition declaration : str :=
  lit "<?xml" ++ attrs_text [(lit "version", lit "1.0"); (lit "encoding", lit "utf-8")]
  ++ lit "?>" ++ [10].

Definition root_attrs : list (str * str) :=
  [(lit "version", lit "0.6"); (lit "generator", lit "osmio/0.16.1")].

(** Declaration and root start tag of an XML file with the given header
    attributes. *)
Definition xml_opening (hs : list (str * str)) : str :=
  declaration ++ lit "<osm"
  ++ attrs_text (root_attrs ++ map (fun h => (fst h, esc (snd h))) hs) ++ lit ">".
Definition xml_closing : str := [10] ++ lit "</osm>".

Definition osc_opening : str :=
  declaration ++ lit "<osmChange" ++ attrs_text root_attrs ++ lit ">" ++ [10] ++ lit "<modify>".
Definition osc_closing : str := [10] ++ lit "</modify>" ++ [10] ++ lit "</osmChange>".

Definition xml_document (hs : list (str * str)) (os : list sobj) : str :=
  xml_opening hs ++ flat_map obj_text os ++ xml_closing.
Definition osc_document (os : list sobj) : str :=
  osc_opening ++ flat_map obj_text os ++ osc_closing.
