(** XML documents as texts, in any layout: specification side.  A document is a
    tree of elements; [document e t] says that the text [t] is a way of writing
    the tree [e].  What is between the elements (text, comments, CDATA sections,
    processing instructions) does not occur in the tree. *)
From Coq Require Import String ZArith List Bool Lia.
From Verif Require Import Base Obj XmlToken SpecXmlRead SpecXmlRef.
Import ListNotations.
Open Scope Z_scope.

Definition blank (c : char) : Prop := In c [32; 9; 10; 13].
Definition blanks (w : str) : Prop := Forall blank w.

(** ** Tags *)

Section Doc.

(** What the parser makes of a character of an attribute value (see XmlToken). *)
Variable attr_ws : char -> char.

(** [value q t v]: between quotes [q], the text [t] stands for [v]. *)
Inductive value (q : char) : str -> str -> Prop :=
| value_end : value q [] []
| value_char c t v : c <> q -> c <> 38 -> c <> 60 -> value q t v -> value q (c :: t) (attr_ws c :: v)
| value_ref n c t v : refers n c -> value q t v -> value q (lit "&" ++ n ++ lit ";" ++ t) (c :: v).

(** [attributes l t]: [t] writes the attributes [l], white space before each. *)
Inductive attributes : list (str * str) -> str -> Prop :=
| attributes_none : attributes [] []
| attributes_one w1 k w2 w3 q u v l t :
    w1 <> [] -> blanks w1 -> xml_name k -> blanks w2 -> blanks w3 -> q = 34 \/ q = 39 -> value q u v ->
    attributes l t -> attributes ((k, v) :: l) (w1 ++ k ++ w2 ++ lit "=" ++ w3 ++ [q] ++ u ++ [q] ++ t).

(** What follows '<' in a start tag. *)
Definition tag_head (n : str) (l : list (str * str)) (t : str) : Prop :=
  exists a w, t = n ++ a ++ w /\ xml_name n /\ attributes l a /\ NoDup (map fst l) /\ blanks w.

(** ** Comments, processing instructions, CDATA *)

(** [u] does not occur in [c ++ u] before its end. *)
Definition ended_by (u c : str) : Prop := forall a b, c ++ u = a ++ u ++ b -> b = [].
Inductive comment : str -> Prop :=
| a_comment c : (forall a b, c ++ lit "-" <> a ++ lit "--" ++ b) -> comment (lit "<!--" ++ c ++ lit "-->").
Inductive instruction : str -> Prop :=
| an_instruction c : ended_by (lit "?>") c -> instruction (lit "<?" ++ c ++ lit "?>").
Inductive cdata : str -> Prop :=
| a_cdata c : ended_by (lit "]]>") c -> cdata (lit "<![CDATA[" ++ c ++ lit "]]>").

(** ** Elements *)

Inductive elem := El (name : str) (attrs : list (str * str)) (kids : list elem).

(** [element e t]: [t] writes [e]; [content es t]: [t] is content with the child
    elements [es]. *)
Inductive element : elem -> str -> Prop :=
| element_empty n l h : tag_head n l h -> element (El n l []) (lit "<" ++ h ++ lit "/>")
| element_full n l h es body w : tag_head n l h -> content es body -> blanks w ->
    element (El n l es) (lit "<" ++ h ++ lit ">" ++ body ++ lit "</" ++ n ++ w ++ lit ">")
with content : list elem -> str -> Prop :=
| content_end : content [] []
| content_char c es r : c <> 60 -> c <> 38 -> content es r -> content es (c :: r)
| content_ref n c es r : refers n c -> content es r -> content es (lit "&" ++ n ++ lit ";" ++ r)
| content_aside t es r : comment t \/ instruction t \/ cdata t -> content es r -> content es (t ++ r)
| content_elem e t es r : element e t -> content es r -> content (e :: es) (t ++ r).

(** Before and after the root element: white space, comments, processing
    instructions (the XML declaration looks like one). *)
Inductive outside : str -> Prop :=
| outside_end : outside []
| outside_blank c r : blank c -> outside r -> outside (c :: r)
| outside_aside t r : comment t \/ instruction t -> outside r -> outside (t ++ r).

Definition document (e : elem) (t : str) : Prop :=
  Forall legal t /\ exists p u q, t = p ++ u ++ q /\ outside p /\ element e u /\ outside q.

End Doc.

(** ** The objects of a document *)

Fixpoint elem_events (e : elem) : list event :=
  match e with El n l kids => EStart n l :: flat_map elem_events kids ++ [EEnd n] end.

Definition object_name (n : str) : Prop := In n (map lit ["node"; "way"; "relation"]%string).
Definition object_nameb (n : str) : bool := existsb (str_eqb n) (map lit ["node"; "way"; "relation"]%string).

(** What the node, way and relation elements denote, in document order: an
    object, or nothing if something needed is missing. *)
Fixpoint denoted (e : elem) : list (option sobj) :=
  match e with
  | El n l kids => if object_nameb n then [object_of n l (flat_map elem_events kids)] else flat_map denoted kids
  end.

(** No node, way or relation is in another one. *)
Inductive free_of_objects : elem -> Prop :=
| free_el n l kids : ~ object_name n -> Forall free_of_objects kids -> free_of_objects (El n l kids).
Inductive unnested : elem -> Prop :=
| unnested_object n l kids : object_name n -> Forall free_of_objects kids -> unnested (El n l kids)
| unnested_other n l kids : ~ object_name n -> Forall unnested kids -> unnested (El n l kids).

(** The objects before the first element that denotes none. *)
Fixpoint first_objects (l : list (option sobj)) : list sobj :=
  match l with Some o :: r => o :: first_objects r | _ => [] end.
