(** tags_json_string (src/lib.rs:341-350) and the JSON column of
    osmio-changeset-tags-to-sqlite, with the parts of serde_json they call. *)
From Coq Require Import String ZArith List Bool Lia.
From Verif Require Import Base Obj.
Import ListNotations.
Open Scope Z_scope.

(** serde_json's string escaping (ser.rs, ESCAPE table and format_escaped_str):
    quotation mark, backslash and the control characters, those without a short
    form as \u00XX with lower-case digits; everything else as it is. *)
Definition hex_digit (n : Z) : char := if n <? 10 then 48 + n else 87 + n.
Definition json_escape (c : char) : str :=
  if c =? 34 then [92; 34]
  else if c =? 92 then [92; 92]
  else if c =? 8 then [92; 98]
  else if c =? 9 then [92; 116]
  else if c =? 10 then [92; 110]
  else if c =? 12 then [92; 102]
  else if c =? 13 then [92; 114]
  else if c <? 32 then [92; 117; 48; 48; hex_digit (c / 16); hex_digit (c mod 16)]
  else [c].
Definition json_text (s : str) : str := 34 :: flat_map json_escape s ++ [34].

(** Order of Rust strings: bytewise, which for UTF-8 is the order of the scalar
    values. *)
Fixpoint str_cmp (a b : str) : comparison :=
  match a, b with
  | [], [] => Eq
  | [], _ => Lt
  | _, [] => Gt
  | x :: a', y :: b' => match x ?= y with Eq => str_cmp a' b' | c => c end
  end.

(** serde_json::Map::insert: a BTreeMap (the preserve_order feature is off), as
    its sorted list of entries. *)
Fixpoint map_insert (k v : str) (m : list (str * str)) : list (str * str) :=
  match m with
  | [] => [(k, v)]
  | (k', v') :: r =>
      match str_cmp k k' with
      | Lt => (k, v) :: m
      | Eq => (k', v) :: r
      | Gt => (k', v') :: map_insert k v r
      end
  end.

(** join with a separator. *)
Fixpoint join (sep : str) (l : list str) : str :=
  match l with
  | [] => []
  | [x] => x
  | x :: r => x ++ sep ++ join sep r
  end.

(** Value::Object(map).to_string(): compact form. *)
Definition object_text (m : list (str * str)) : str :=
  [123] ++ join [44] (map (fun '(k, v) => json_text k ++ [58] ++ json_text v) m) ++ [125].

(** tags_json_string, src/lib.rs:341-350, for what untagged() and tags() return. *)
Definition tags_json (untagged : bool) (t : tags) : str :=
  if untagged then lit "{}"
  else object_text (fold_left (fun m '(k, v) => map_insert k v m) t []).
Definition s_tags_json (o : sobj) : str := tags_json (s_untagged o) (s_tags o).
Definition a_tags_json (o : aobj) : str := tags_json (a_untagged o) (a_tags o).

(** serde_json::to_writer of a Vec<(String, String)>,
    src/bin/osmio-changeset-tags-to-sqlite.rs:109-110: an array of two-element
    arrays. *)
Definition pairs_json (t : tags) : str :=
  [91] ++ join [44] (map (fun '(k, v) => [91] ++ json_text k ++ [44] ++ json_text v ++ [93]) t) ++ [93].
