(** The serde derives of the public value types: Lat, Lon (src/lib.rs:100-101),
    TimestampFormat (src/lib.rs:248-252) and OSMObjectType (src/lib.rs:487-493),
    used with serde_json's to_string and from_str. *)
From Coq Require Import String ZArith List Bool Lia.
From Verif Require Import Base Ints Timestamp Obj Json SpecJson.
Import ListNotations.
Open Scope Z_scope.

(** ** Writing *)

(** derive(Serialize) on a newtype struct writes what it holds: Lat and Lon,
    src/lib.rs:100-101. *)
Definition coord_to_json (inner : Z) : str := show_int inner.

(** derive(Serialize) on an enum whose variants hold one value writes an object
    with the variant's name: TimestampFormat, src/lib.rs:248-252. *)
Definition variant_json (name payload : str) : str :=
  [123] ++ json_text name ++ [58] ++ payload ++ [125].
Definition timestamp_to_json (t : timestamp) : str :=
  match t with
  | ISOString s => variant_json (lit "ISOString") (json_text s)
  | EpochNumber n => variant_json (lit "EpochNumber") (show_int n)
  end.

(** derive(Serialize) on an enum whose variants hold nothing writes the name:
    OSMObjectType, src/lib.rs:487-493. *)
Definition objtype_to_json (t : objtype) : str :=
  json_text match t with
            | TNode => lit "Node"
            | TWay => lit "Way"
            | TRelation => lit "Relation"
            end.

(** ** Reading *)

(** The digits of an integer (serde_json de.rs, parse_integer).  Rust leaves the
    loop when the number no longer fits 64 bits; what follows can then only be
    read as a float, which de_number refuses because of the value. *)
Fixpoint de_digits (n : Z) (s : str) : Z * str :=
  match s with
  | c :: r => if digitb c then de_digits (n * 10 + (c - 48)) r else (n, s)
  | [] => (n, [])
  end.

(** parse_number: after the digits, a fraction or an exponent makes it a float. *)
Definition de_integral (p : Z * str) : option (Z * str) :=
  match snd p with
  | c :: _ => if (c =? 46) || (c =? 101) || (c =? 69) then None else Some p
  | [] => Some p
  end.

(** parse_integer: no leading zeros. *)
Definition de_magnitude (s : str) : option (Z * str) :=
  match s with
  | [] => None
  | c :: r =>
      if c =? 48 then
        match r with
        | d :: _ => if digitb d then None else de_integral (0, r)
        | [] => de_integral (0, r)
        end
      else if (49 <=? c) && (c <=? 57) then de_integral (de_digits (c - 48) r)
      else None
  end.

(** deserialize_number for the integer types.  Floats are refused by the visitors
    of the integer types, so None stands for them too: a magnitude over 64 bits,
    minus zero, and negative numbers below the range of i64. *)
Definition de_number (s : str) : option (Z * str) :=
  match s with
  | [] => None
  | c :: r =>
      if c =? 45 then
        match de_magnitude r with
        | Some (n, t) => if (n =? 0) || (2 ^ 63 <? n) then None else Some (- n, t)
        | None => None
        end
      else
        match de_magnitude s with
        | Some (n, t) => if n <? 2 ^ 64 then Some (n, t) else None
        | None => None
        end
  end.

(** An integer type: white space, a number, the range check of the visitor. *)
Definition de_int (lo hi : Z) (s : str) : option (Z * str) :=
  match de_number (skip_jws s) with
  | Some (n, t) => if (lo <=? n) && (n <=? hi) then Some (n, t) else None
  | None => None
  end.

(** deserialize_str: white space, a string ([jstring]: serde_json's string
    parser is taken to be JSON's). *)
Definition de_str (s : str) : option (str * str) :=
  match skip_jws s with
  | c :: r => if c =? 34 then jstring r else None
  | [] => None
  end.

(** deserialize_unit. *)
Definition de_null (s : str) : option str := strip_prefix (lit "null") (skip_jws s).

(** One expected character after white space. *)
Definition de_char (e : char) (s : str) : option str :=
  match skip_jws s with
  | c :: r => if c =? e then Some r else None
  | [] => None
  end.

(** deserialize_enum and VariantAccess on an object: the name, a colon, what the
    variant of that name holds, the closing brace. *)
Definition de_variant {A} (payload : str -> str -> option (A * str)) (s : str) : option (A * str) :=
  match de_char 123 s with
  | None => None
  | Some r =>
      match de_str r with
      | None => None
      | Some (name, r1) =>
          match de_char 58 r1 with
          | None => None
          | Some r2 =>
              match payload name r2 with
              | None => None
              | Some (x, r3) =>
                  match de_char 125 r3 with Some r4 => Some (x, r4) | None => None end
              end
          end
      end
  end.

(** serde_json::from_str: the value and nothing but white space after it. *)
Definition from_str {A} (de : str -> option (A * str)) (s : str) : option A :=
  match de s with
  | Some (x, r) => match skip_jws r with [] => Some x | _ => None end
  | None => None
  end.

(** derive(Deserialize) on Lat and Lon, src/lib.rs:100-101. *)
Definition coord_of_json : str -> option Z := from_str (de_int (- 2 ^ 31) (2 ^ 31 - 1)).

(** derive(Deserialize) on TimestampFormat, src/lib.rs:248-252.  A bare string
    names a variant without content (UnitVariantAccess), of which there is none. *)
Definition de_timestamp (s : str) : option (timestamp * str) :=
  de_variant
    (fun name r =>
       if str_eqb name (lit "ISOString") then
         match de_str r with Some (x, t) => Some (ISOString x, t) | None => None end
       else if str_eqb name (lit "EpochNumber") then
         match de_int (- 2 ^ 63) (2 ^ 63 - 1) r with Some (n, t) => Some (EpochNumber n, t) | None => None end
       else None) s.
Definition timestamp_of_json : str -> option timestamp := from_str de_timestamp.

(** derive(Deserialize) on OSMObjectType, src/lib.rs:487-493: the name as a
    string, or an object with that name and null. *)
Definition objtype_named (name : str) : option objtype :=
  if str_eqb name (lit "Node") then Some TNode
  else if str_eqb name (lit "Way") then Some TWay
  else if str_eqb name (lit "Relation") then Some TRelation
  else None.
Definition de_objtype (s : str) : option (objtype * str) :=
  match skip_jws s with
  | [] => None
  | c :: _ =>
      if c =? 34 then
        match de_str s with
        | Some (name, t) =>
            match objtype_named name with Some o => Some (o, t) | None => None end
        | None => None
        end
      else
        de_variant
          (fun name r =>
             match objtype_named name with
             | Some o => match de_null r with Some t => Some (o, t) | None => None end
             | None => None
             end) s
  end.
Definition objtype_of_json : str -> option objtype := from_str de_objtype.
