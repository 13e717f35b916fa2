(** Which objects come back from XML: specification side. *)
From Coq Require Import String ZArith List Bool Lia.
From Verif Require Import Base Timestamp Obj SpecXml XmlToken SpecXmlRead.
Import ListNotations.
Open Scope Z_scope.

(** Texts that mean themselves between double quotes: no ampersand, no less-than sign, no double quote. *)
Definition plain (s : str) : Prop := Forall (fun c => c <> 38 /\ c <> 60 /\ c <> 34) s.

(** The free texts of an object satisfy [Q], the text of its timestamp [T]. *)
Definition texts (Q T : str -> Prop) (o : sobj) : Prop :=
  opt_prop Q (m_user (s_meta o)) /\ Forall (fun t => Q (fst t) /\ Q (snd t)) (s_tags o)
  /\ Forall (fun m => Q (snd m)) (obj_members o)
  /\ opt_prop (fun t => T (to_iso_string t)) (m_timestamp (s_meta o)).

(** Objects that can be read back: a node has a position, XML can carry the texts, and the
    timestamp, which is not escaped, needs no escaping. *)
Definition comes_back (attr_ws : char -> char) (o : sobj) : Prop :=
  has_position o /\ texts (carried attr_ws) (fun s => carried attr_ws s /\ plain s) o.
