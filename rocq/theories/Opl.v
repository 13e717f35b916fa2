(** The OPL (object per line) decoder: src/opl/mod.rs.  The module is in the
    source tree but not part of the crate (src/lib.rs has no "mod opl"), and would
    no longer compile: it builds Node, Way and Relation, which are traits now, as
    structs.  Those structs are modelled by the fields it gives them.  Its writer's
    write_obj is unimplemented!() (src/opl/mod.rs:63-77): the line formats are those
    of the commented-out body. *)
From Coq Require Import String ZArith List Bool Lia.
From Coq Require Import ZifyBool ZifyNat.
From Verif Require Import Base Ints Utf8.
Import ListNotations.
Open Scope Z_scope.

(** A function that returns Result and may panic: Ret (Some v) is Ok(v), Ret None
    is Err. *)
Notation result A := (outcome (option A)) (only parsing).
Definition rbind {A B} (x : result A) (f : A -> result B) : result B :=
  match x with Ret (Some a) => f a | Ret None => Ret None | Panic => Panic end.
Notation "'try' x <- e ; k" := (rbind e (fun x => k))
  (at level 200, x pattern, e at level 100, k at level 200, right associativity).
Definition rmapM {A B} (f : A -> result B) : list A -> result (list B) :=
  fix go l :=
  match l with
  | [] => Ret (Some [])
  | a :: r => try b <- f a; try bs <- go r; Ret (Some (b :: bs))
  end.

(** ** The str functions used *)

(** [str::split] at a one-character pattern: never empty. *)
Fixpoint split_on (c : char) (s : str) : list str :=
  match s with
  | [] => [[]]
  | x :: r =>
      if x =? c then [] :: split_on c r
      else match split_on c r with
           | [] => [[x]]
           | w :: ws => (x :: w) :: ws
           end
  end.
(** [splitn(2, c)]: the part before the first separator and, if there is one, the
    part after it. *)
Fixpoint splitn2 (c : char) (s : str) : str * option str :=
  match s with
  | [] => ([], None)
  | x :: r => if x =? c then ([], Some r) else let (a, b) := splitn2 c r in (x :: a, b)
  end.
(** [replace] of a one-character pattern. *)
Definition replace (c : char) (by_ : str) (s : str) : str :=
  flat_map (fun x => if x =? c then by_ else [x]) s.
(** [join]. *)
Fixpoint join (sep : str) (l : list str) : str :=
  match l with
  | [] => []
  | [x] => x
  | x :: r => x ++ sep ++ join sep r
  end.

(** [char::to_digit(16)]. *)
Definition hex_digit (c : char) : option Z :=
  if (48 <=? c) && (c <=? 57) then Some (c - 48)
  else if (65 <=? c) && (c <=? 70) then Some (c - 55)
  else if (97 <=? c) && (c <=? 102) then Some (c - 87)
  else None.
Fixpoint hex_loop (acc : Z) (s : str) : option Z :=
  match s with
  | [] => Some acc
  | c :: r =>
      match hex_digit c with
      | Some d => let a := acc * 16 + d in if a <? 2^32 then hex_loop a r else None
      | None => None
      end
  end.
(** [u32::from_str_radix(s, 16)]. *)
Definition parse_hex (s : str) : option Z :=
  match s with
  | [] => None
  | c :: r => if c =? 43 then match r with [] => None | _ => hex_loop 0 r end else hex_loop 0 s
  end.
(** [char::from_u32]. *)
Definition from_u32 (v : Z) : option char := if scalarb v then Some v else None.

(** ["{:X}"] of a character code, as used for the five characters of
    encode_string: all below 256. *)
Definition hex_char (d : Z) : char := if d <? 10 then 48 + d else 55 + d.
Definition show_hex (v : Z) : str := if v <? 16 then [hex_char v] else [hex_char (v / 16); hex_char (v mod 16)].

(** ** Strings *)

(** The loop of decode_string, src/opl/mod.rs:91-111: [buf] is the buffer when
    looking for the closing percent sign. *)
Fixpoint dec_str (buf : option str) (s : str) : option str :=
  match s with
  | [] => Some []
  | c :: r =>
      match buf with
      | Some b =>
          if c =? 37 then
            opt_bind (parse_hex b) (fun cp =>
            opt_bind (from_u32 cp) (fun ch =>
            opt_map (cons ch) (dec_str None r)))
          else dec_str (Some (b ++ [c])) r
      | None => if c =? 37 then dec_str (Some []) r else opt_map (cons c) (dec_str None r)
      end
  end.
(** decode_string, src/opl/mod.rs:87-114 *)
Definition decode_string (s : str) : option str := dec_str None s.

(** encode_string, src/opl/mod.rs:116-122 *)
Definition encode_string (s : str) : str :=
  fold_left (fun acc c => replace c ([37] ++ show_hex c ++ [37]) acc) [32; 10; 44; 61; 64] s.

(** ** Tags, way nodes, members *)

(** [HashMap::insert] on a map modelled as an association list. *)
Fixpoint map_insert (k v : str) (m : list (str * str)) : list (str * str) :=
  match m with
  | [] => [(k, v)]
  | (k', v') :: r => if str_eqb k k' then (k, v) :: r else (k', v') :: map_insert k v r
  end.
Fixpoint map_get (k : str) (m : list (str * str)) : option str :=
  match m with
  | [] => None
  | (k', v) :: r => if str_eqb k k' then Some v else map_get k r
  end.

(** The loop of decode_tags, src/opl/mod.rs:131-136: kv[1] panics when there is no
    '=', but only if the key could be decoded. *)
Fixpoint dec_tags (m : list (str * str)) (l : list str) : result (list (str * str)) :=
  match l with
  | [] => Ret (Some m)
  | kv :: r =>
      let (a, b) := splitn2 61 kv in
      try k <- Ret (decode_string a);
      do bs <- unwrap b;
      try v <- Ret (decode_string bs);
      dec_tags (map_insert k v m) r
  end.
(** decode_tags, src/opl/mod.rs:125-138 *)
Definition decode_tags (line : str) : result (list (str * str)) :=
  match line with
  | [] => Ret (Some [])
  | _ => dec_tags [] (split_on 44 line)
  end.
(** encode_tags, src/opl/mod.rs:140-143; the argument is the map in the order in
    which it is iterated. *)
Definition encode_tags (tags : list (str * str)) : str :=
  join [44] (map (fun kv => encode_string (fst kv) ++ [61] ++ encode_string (snd kv)) tags).

(** decode_way_nodes, src/opl/mod.rs:146-153 *)
Definition decode_way_nodes (line : str) : result (list Z) :=
  rmapM (fun x => Ret (parse_i64 (tl x))) (split_on 44 line).
(** encode_way_nodes, src/opl/mod.rs:155-157 *)
Definition encode_way_nodes (nodes : list Z) : str :=
  join [44] (map (fun n => 110 :: show_int n) nodes).

(** split_key_value, src/opl/mod.rs:176-193: s.len() is in bytes, and
    char_indices().nth(1) is at byte 1 when the first character is ASCII. *)
Definition split_key_value (s : str) : option (str * str) :=
  if (length (utf8 s) =? 1)%nat then Some (s, [])
  else match s with
       | a :: b :: r => if (length (utf8_char a) =? 1)%nat then Some ([a], b :: r) else None
       | _ => None
       end.

(** decode_members, src/opl/mod.rs:159-170; rest[1] panics when there is no '@'. *)
Definition decode_member (x : str) : result (char * Z * str) :=
  try (ot, rest) <- Ret (split_key_value x);
  try t <- Ret (hd_error ot);
  let (a, b) := splitn2 64 rest in
  do role <- unwrap b;
  try id <- Ret (parse_i64 a);
  Ret (Some (t, id, role)).
Definition decode_members (line : str) : result (list (char * Z * str)) :=
  rmapM decode_member (split_on 44 line).
(** encode_members, src/opl/mod.rs:172-174 *)
Definition encode_members (ms : list (char * Z * str)) : str :=
  join [44] (map (fun '(t, id, role) => t :: show_int id ++ [64] ++ role) ms).

(** ** Lines *)

(** The fields given to Node, Way and Relation, src/opl/mod.rs:212-223, 229-239,
    245-255: version, changeset, uid and user are always Some, the timestamp is
    always the text of the line. *)
Record ometa := OM {
  om_id : Z; om_version : Z; om_deleted : bool; om_changeset : Z;
  om_timestamp : str; om_uid : Z; om_user : str
}.
Inductive oobj (C : Type) :=
| ONode (m : ometa) (tags : list (str * str)) (lon lat : option C)
| OWay (m : ometa) (tags : list (str * str)) (nodes : list Z)
| ORel (m : ometa) (tags : list (str * str)) (members : list (char * Z * str)).
Arguments ONode {C}. Arguments OWay {C}. Arguments ORel {C}.

Section Line.
(** Coordinates and their parser ([FromStr] of Lat and Lon). *)
Variable C : Type.
Variable parse_lon parse_lat : str -> option C.

(** items[i].1, an index that may be out of range. *)
Definition item (items : list (str * str)) (i : nat) : outcome str := unwrap (opt_map snd (nth_error items i)).

(** The common fields, in the order in which the struct literals evaluate them,
    src/opl/mod.rs:213-219. *)
Definition dec_meta (items : list (str * str)) : result ometa :=
  do x <- item items 0; try id <- Ret (parse_i64 x);
  do x <- item items 1; try version <- Ret (parse_u32 x);
  do x <- item items 2; let deleted := str_eqb x [68] in
  do x <- item items 3; try changeset <- Ret (parse_u32 x);
  do ts <- item items 4;
  do x <- item items 5; try uid <- Ret (parse_u32 x);
  do user <- item items 6;
  Ret (Some (OM id version deleted changeset ts uid user)).

(** The longitude and latitude, src/opl/mod.rs:209-210. *)
Definition dec_coord (parse : str -> option C) (x : str) : result (option C) :=
  match x with
  | [] => Ret (Some None)
  | _ => try c <- Ret (parse x); Ret (Some (Some c))
  end.

(** The branches of decode_line, src/opl/mod.rs:206-259 *)
Definition dec_items (items : list (str * str)) : result (oobj C) :=
  match items with
  | [] => Panic
  | (k, _) :: _ =>
      if str_eqb k [110] then
        do x <- item items 7; try tags <- decode_tags x;
        do x <- item items 8; try lon <- dec_coord parse_lon x;
        do x <- item items 9; try lat <- dec_coord parse_lat x;
        try m <- dec_meta items; Ret (Some (ONode m tags lon lat))
      else if str_eqb k [119] then
        do x <- item items 7; try tags <- decode_tags x;
        do x <- item items 8; try nodes <- decode_way_nodes x;
        try m <- dec_meta items; Ret (Some (OWay m tags nodes))
      else if str_eqb k [114] then
        do x <- item items 7; try tags <- decode_tags x;
        do x <- item items 8; try members <- decode_members x;
        try m <- dec_meta items; Ret (Some (ORel m tags members))
      else Ret None
  end.
(** decode_line, src/opl/mod.rs:196-260 *)
Definition decode_line (line : str) : result (oobj C) :=
  try items <- rmapM (fun s => Ret (split_key_value s)) (split_on 32 line);
  dec_items items.

(** ** The reader *)

(** [char::is_whitespace]. *)
Definition is_ws (c : char) : bool :=
  ((9 <=? c) && (c <=? 13)) || (c =? 32) || (c =? 133) || (c =? 160) || (c =? 5760)
  || ((8192 <=? c) && (c <=? 8202)) || (c =? 8232) || (c =? 8233) || (c =? 8239) || (c =? 8287) || (c =? 12288).
Fixpoint trim_start (s : str) : str :=
  match s with
  | c :: r => if is_ws c then trim_start r else s
  | [] => []
  end.
(** [str::trim]. *)
Definition trim (s : str) : str := rev (trim_start (rev (trim_start s))).

(** [BufRead::read_line]: the bytes up to and including the next newline. *)
Fixpoint take_line (b : bytes) : bytes * bytes :=
  match b with
  | [] => ([], [])
  | x :: r => if x =? 10 then ([x], r) else let (l, q) := take_line r in (x :: l, q)
  end.

(** OPLReader::next, src/opl/mod.rs:28-37; read_line fails on bytes that are not
    UTF-8. *)
Definition opl_next (b : bytes) : result (oobj C) * bytes :=
  let (l, r) := take_line b in
  (match utf8_decode l with
   | None => Ret None
   | Some line => decode_line (trim line)
   end, r).

(** Calling next() until it returns None.  Every call that returns an object
    consumes input, so the number of bytes bounds the number of calls. *)
Fixpoint opl_all (fuel : nat) (b : bytes) : outcome (list (oobj C)) :=
  match fuel with
  | O => Ret []
  | S f =>
      let (res, r) := opl_next b in
      do o <- res;
      match o with
      | None => Ret []
      | Some o => do l <- opl_all f r; Ret (o :: l)
      end
  end.
Definition opl_objects (b : bytes) : outcome (list (oobj C)) := opl_all (S (length b)) b.

End Line.
Arguments decode_line {C}. Arguments opl_objects {C}. Arguments opl_next {C}. Arguments opl_all {C}. Arguments dec_items {C}. Arguments dec_coord {C}.
