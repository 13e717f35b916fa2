(** What a sequence of calls on an XML or OSC writer should do: specification
    side, as functions of the call history. *)
From Coq Require Import String ZArith List Bool Lia.
From Verif Require Import Base Ints Obj XmlWrite SpecXml.
Import ListNotations.
Open Scope Z_scope.

(** ** One object *)

(** What reaches the sink for an object: its text, or, when it has no version
    (the writers then panic), the part before the version attribute. *)
Definition broken_text (o : sobj) : str :=
  [10; 9] ++ lit "<" ++ name_long (s_type o)
  ++ attrs_text [(lit "id", show_int (m_id (s_meta o)));
                 (lit "visible", if m_deleted (s_meta o) then lit "false" else lit "true")].

Definition write_text (o : sobj) : str :=
  match m_version (s_meta o) with Some _ => obj_text o | None => broken_text o end.
Definition write_res (o : sobj) : wres unit :=
  match m_version (s_meta o) with Some _ => WOk tt | None => WPanic end.

(** ** Histories on a sink that does not fail *)

Definition is_close (c : call) : bool := match c with CClose => true | _ => false end.
Definition is_set (c : call) : bool := match c with CSetHeader _ _ => true | _ => false end.

(** Has a write or a close been called? *)
Definition started (cs : list call) : bool := existsb (fun c => negb (is_set c)) cs.
(** Has close been called? *)
Definition closed (cs : list call) : bool := existsb is_close cs.

(** The objects given to write_obj before the first close, in order. *)
Fixpoint written (cs : list call) : list sobj :=
  match cs with
  | [] => []
  | CClose :: _ => []
  | CWrite o :: r => o :: written r
  | CSetHeader _ _ :: r => written r
  end.

(** The number of close calls. *)
Definition closes (cs : list call) : nat := length (filter is_close cs).

(** The header calls that count: those before the first write or close. *)
Fixpoint header_calls (cs : list call) : list (str * str) :=
  match cs with
  | CSetHeader k v :: r => (k, v) :: header_calls r
  | _ => []
  end.

(** [hs] is the map those calls build: every key once, with the value given
    last. *)
Definition last_value (k : str) (l : list (str * str)) : option str :=
  fold_left (fun acc h => if str_eqb (fst h) k then Some (snd h) else acc) l None.
Definition header_map (hs l : list (str * str)) : Prop :=
  NoDup (map fst hs) /\ forall k v, In (k, v) hs <-> last_value k l = Some v.
