(** What the lines of an OPL file say, specification side.  Only the types of objects
    come from the model. *)
From Coq Require Import String ZArith List Bool Permutation.
From Verif Require Import Base SpecNum Utf8 SpecOpl Opl.
Import ListNotations.
Open Scope Z_scope.

(** The pieces of a text between the separators [c]: at least one. *)
Inductive pieces (c : char) : str -> list str -> Prop :=
| pc_last s : ~ In c s -> pieces c s [s]
| pc_more p s ps : ~ In c p -> pieces c s ps -> pieces c (p ++ [c] ++ s) (p :: ps).

(** A field: a letter that takes one byte, and a value. *)
Definition field (s : str) (f : char * str) : Prop := s = fst f :: snd f /\ fst f < 128.
Definition value_at (fs : list (char * str)) (i : nat) (v : str) : Prop := exists c, nth_error fs i = Some (c, v).

(** The string of a key or value: that of an OPL text; whatever follows a percent sign
    without partner does not count. *)
Definition stands_for (s t : str) : Prop :=
  text_of s t \/ exists a b, s = a ++ lit "%" ++ b /\ text_of a t /\ ~ In (chr "%") b.
Definition tag (p : str) (kv : str * str) : Prop :=
  exists a b, p = a ++ lit "=" ++ b /\ ~ In (chr "=") a /\ stands_for a (fst kv) /\ stands_for b (snd kv).
(** [m] is the map that the pairs [kvs] describe: the last value of each key. *)
Definition last_value (kvs : list (str * str)) (k v : str) : Prop :=
  exists a b, kvs = a ++ (k, v) :: b /\ ~ In k (map fst b).
Definition map_of (kvs m : list (str * str)) : Prop :=
  NoDup (map fst m) /\ forall k v, In (k, v) m <-> last_value kvs k v.
Definition tags_of (s : str) (m : list (str * str)) : Prop :=
  (s = [] /\ m = []) \/
  (s <> [] /\ exists ps kvs, pieces (chr ",") s ps /\ Forall2 tag ps kvs /\ map_of kvs m).

Definition id_text (s : str) (n : Z) : Prop := denotes_int true s n /\ in_i64 n.
Definition u32_text (s : str) (n : Z) : Prop := denotes_int false s n /\ in_u32 n.

(** Way nodes: whatever the first character of a piece is, the number follows it. *)
Definition nodes_of (s : str) (ns : list Z) : Prop :=
  exists ps, pieces (chr ",") s ps /\ Forall2 (fun p n => id_text (tl p) n) ps ns.
(** Members: a letter, an id, '@', and the role as it is. *)
Definition member (p : str) (m : char * Z * str) : Prop :=
  let '(t, id, role) := m in
  exists a, field p (t, a ++ lit "@" ++ role) /\ ~ In (chr "@") a /\ id_text a id.
Definition members_of (s : str) (ms : list (char * Z * str)) : Prop :=
  exists ps, pieces (chr ",") s ps /\ Forall2 member ps ms.

Definition coord_of {C} (parse : str -> option C) (s : str) (c : option C) : Prop :=
  (s = [] /\ c = None) \/ (s <> [] /\ c <> None /\ parse s = c).

Definition meta_of (fs : list (char * str)) (m : ometa) : Prop :=
  (exists s, value_at fs 0 s /\ id_text s (om_id m)) /\
  (exists s, value_at fs 1 s /\ u32_text s (om_version m)) /\
  (exists s, value_at fs 2 s /\ (om_deleted m = true <-> s = lit "D")) /\
  (exists s, value_at fs 3 s /\ u32_text s (om_changeset m)) /\
  value_at fs 4 (om_timestamp m) /\
  (exists s, value_at fs 5 s /\ u32_text s (om_uid m)) /\
  value_at fs 6 (om_user m).

Definition kind_of (fs : list (char * str)) (c : char) : Prop := exists v, nth_error fs 0 = Some (c, v).
Definition tags_at (fs : list (char * str)) (m : list (str * str)) : Prop := exists s, value_at fs 7 s /\ tags_of s m.

(** The fields [fs] are those of an object. *)
Definition object_of {C} (parse_lon parse_lat : str -> option C) (fs : list (char * str)) (o : oobj C) : Prop :=
  match o with
  | ONode m tags lon lat => kind_of fs (chr "n") /\ meta_of fs m /\ tags_at fs tags /\
      (exists s, value_at fs 8 s /\ coord_of parse_lon s lon) /\ (exists s, value_at fs 9 s /\ coord_of parse_lat s lat)
  | OWay m tags nodes => kind_of fs (chr "w") /\ meta_of fs m /\ tags_at fs tags /\ (exists s, value_at fs 8 s /\ nodes_of s nodes)
  | ORel m tags members => kind_of fs (chr "r") /\ meta_of fs m /\ tags_at fs tags /\ (exists s, value_at fs 8 s /\ members_of s members)
  end.
Definition fields_of (line : str) (fs : list (char * str)) : Prop :=
  exists ps, pieces (chr " ") line ps /\ Forall2 field ps fs.
(** A line says an object. *)
Definition says {C} (parse_lon parse_lat : str -> option C) (line : str) (o : oobj C) : Prop :=
  exists fs, fields_of line fs /\ object_of parse_lon parse_lat fs o.

(** The same object: the tags are a map, in no order. *)
Definition same_object {C} (o o' : oobj C) : Prop :=
  match o, o' with
  | ONode m t a b, ONode m' t' a' b' => m = m' /\ Permutation t t' /\ a = a' /\ b = b'
  | OWay m t n, OWay m' t' n' => m = m' /\ Permutation t t' /\ n = n'
  | ORel m t n, ORel m' t' n' => m = m' /\ Permutation t t' /\ n = n'
  | _, _ => False
  end.

(** ** Lines that crash the decoder *)

(** The first tag that is not one has a readable key and no '='. *)
Definition tags_crash (s : str) : Prop :=
  s <> [] /\ exists good p rest k, pieces (chr ",") s (good ++ p :: rest) /\ Forall (fun q => exists kv, tag q kv) good
    /\ ~ In (chr "=") p /\ stands_for p k.
(** The first member that is not one has a letter and no '@'. *)
Definition members_crash (s : str) : Prop :=
  exists good p rest f, pieces (chr ",") s (good ++ p :: rest) /\ Forall (fun q => exists m, member q m) good
    /\ field p f /\ ~ In (chr "@") (snd f).
Definition crashes {C} (parse_lon : str -> option C) (line : str) : Prop :=
  exists fs, fields_of line fs /\ (kind_of fs (chr "n") \/ kind_of fs (chr "w") \/ kind_of fs (chr "r")) /\
  ((length fs <= 7)%nat \/
   (exists s, value_at fs 7 s /\ tags_crash s) \/
   (length fs = 8%nat /\ exists m, tags_at fs m) \/
   (length fs = 9%nat /\ kind_of fs (chr "n") /\ (exists m, tags_at fs m) /\ exists s c, value_at fs 8 s /\ coord_of parse_lon s c) \/
   (kind_of fs (chr "r") /\ (exists m, tags_at fs m) /\ exists s, value_at fs 8 s /\ members_crash s)).

(** ** Files *)

(** The lines of a file, with their line breaks; the last may lack its own. *)
Inductive lines : bytes -> list bytes -> Prop :=
| ln_end : lines [] []
| ln_last l : l <> [] -> ~ In 10 l -> lines l [l]
| ln_line l r ls : ~ In 10 l -> lines r ls -> lines (l ++ [10] ++ r) ((l ++ [10]) :: ls).
(** [t] is [s] without the white space around it. *)
Definition stripped (s t : str) : Prop :=
  exists a b, s = a ++ t ++ b /\ Forall white a /\ Forall white b /\
    (forall c r, t = c :: r -> ~ white c) /\ (forall c r, t = r ++ [c] -> ~ white c).
(** The text of a line of a file. *)
Definition line_text (l : bytes) (t : str) : Prop := exists s, valid_str s /\ l = utf8 s /\ stripped s t.
