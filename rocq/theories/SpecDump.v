(** XML texts of changeset files, in bytes: specification side.  A text is a
    sequence of markups with character data before each of them; the relation
    [markup e m] says that the bytes [m] are a way of writing the event [e]. *)
From Coq Require Import String ZArith List Bool Lia.
From Verif Require Import Base Ints Utf8 XmlToken Changesets SpecXmlRef.
Import ListNotations.
Open Scope Z_scope.

(** White space of XML. *)
Definition white (b : Z) : Prop := In b [32; 9; 10; 13].

(** Names: at least one byte; none is white space or one of the bytes that are
    special in tags. *)
Definition special (b : Z) : Prop := white b \/ In b [33; 34; 38; 39; 47; 60; 61; 62; 63].
Definition good_name (n : bytes) : Prop := n <> [] /\ Forall (fun b => ~ special b) n.

(** Attributes: white space, a name, an equals sign, a value in quotes of one
    kind that does not contain that quote or a less-than sign. *)
Inductive attributes : list (bytes * bytes) -> bytes -> Prop :=
| no_attributes : attributes [] []
| an_attribute w1 k w2 w3 q v l t :
    w1 <> [] -> Forall white w1 -> good_name k -> Forall white w2 -> Forall white w3 ->
    q = 34 \/ q = 39 -> ~ In q v -> ~ In 60 v -> attributes l t ->
    attributes ((k, v) :: l) (w1 ++ k ++ w2 ++ [61] ++ w3 ++ [q] ++ v ++ [q] ++ t).

Definition as_attr (x : bytes * bytes) : qattr := AOk (fst x) (snd x).

(** [t] occurs in [c ++ t] at the end only. *)
Definition ended_by (t c : bytes) : Prop := forall a b, c ++ t = a ++ t ++ b -> b = [].

Inductive markup : qevent -> bytes -> Prop :=
| m_start n l t w : good_name n -> attributes l t -> NoDup (map fst l) -> Forall white w ->
    markup (QStart n (map as_attr l)) (lit "<" ++ n ++ t ++ w ++ lit ">")
| m_empty n l t w : good_name n -> attributes l t -> NoDup (map fst l) -> Forall white w ->
    markup (QEmpty n (map as_attr l)) (lit "<" ++ n ++ t ++ w ++ lit "/>")
| m_end n w : good_name n -> Forall white w ->
    markup (QEnd n) (lit "</" ++ n ++ w ++ lit ">")
| m_comment c : ended_by (lit "-->") c -> markup QOther (lit "<!--" ++ c ++ lit "-->")
| m_cdata c : ended_by (lit "]]>") c -> markup QOther (lit "<![CDATA[" ++ c ++ lit "]]>")
| m_pi c : c <> [] -> hd 0 c <> 62 -> ended_by (lit "?>") c -> markup QOther (lit "<?" ++ c ++ lit "?>")
| m_reference n : ~ In 59 n -> ~ In 38 n -> ~ In 60 n -> markup QOther (lit "&" ++ n ++ lit ";").

(** Character data. *)
Definition plain_text (t : bytes) : Prop := ~ In 60 t /\ ~ In 38 t.
Definition text_event (t : bytes) : list qevent := match t with [] => [] | _ => [QOther] end.

(** A piece of a file: character data, then a markup. *)
Record piece := Piece { pc_text : bytes; pc_event : qevent; pc_markup : bytes }.
Definition good_piece (x : piece) : Prop := plain_text (pc_text x) /\ markup (pc_event x) (pc_markup x).
Definition piece_bytes (x : piece) : bytes := pc_text x ++ pc_markup x.
Definition piece_events (x : piece) : list qevent := text_event (pc_text x) ++ [pc_event x].

(** The elements that are open after some events, innermost first; [None] if an
    end tag does not fit. *)
Fixpoint opened (st : list bytes) (l : list qevent) : option (list bytes) :=
  match l with
  | [] => Some st
  | QStart n _ :: r => opened (n :: st) r
  | QEnd n :: r => match st with
                   | m :: st' => if str_eqb n m then opened st' r else None
                   | [] => None
                   end
  | _ :: r => opened st r
  end.

(** [b] is a text whose events are [l] and whose end tags fit. *)
Definition text_of (l : list qevent) (b : bytes) : Prop :=
  exists xs t, Forall good_piece xs /\ plain_text t
    /\ b = flat_map piece_bytes xs ++ t
    /\ l = flat_map piece_events xs ++ text_event t
    /\ opened [] l <> None.

(** ** Beginnings of texts *)

(** Something, but not all, of a markup. *)
Definition partial_markup (r : bytes) : Prop := exists e m r2, markup e m /\ m = r ++ r2 /\ r <> [] /\ r2 <> [].
(** The bytes are a text with the events [evs] and, if [frag], the beginning of
    a markup after it. *)
Definition begun (evs : list qevent) (frag : bool) (b : bytes) : Prop :=
  exists c r, b = c ++ r /\ text_of evs c /\ (if frag then partial_markup r else r = []).
(** ... a text with the events [evs] and then character data or the beginning of
    a markup. *)
Definition begun_io (evs : list qevent) (b : bytes) : Prop :=
  exists c r, b = c ++ r /\ text_of evs c /\ (plain_text r \/ partial_markup r).

(** ** Attribute values *)

(** [spelled v s]: the characters [v] between the quotes stand for the text [s]. *)
Inductive spelled : str -> str -> Prop :=
| sp_end : spelled [] []
| sp_char c v s : ~ white c -> c <> 38 -> spelled v s -> spelled (c :: v) (c :: s)
| sp_white c v s : white c -> (c = 13 -> hd 0 v <> 10) -> spelled v s -> spelled (c :: v) (32 :: s)
| sp_newline v s : spelled v s -> spelled (13 :: 10 :: v) (32 :: s)
| sp_ref n c v s : refers n c -> spelled v s -> spelled (lit "&" ++ n ++ lit ";" ++ v) (c :: s).
