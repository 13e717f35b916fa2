(** The PBF readers when a panic is caught (catch_unwind) and the reader is used again:
    src/stringpbf/mod.rs:59-87, 545-568, src/stringpbf/node_id_pos.rs:48-66,
    src/arcpbf/mod.rs:56-81, 517-541 with the state a call leaves behind also when it
    panics.  The decoding of single objects is that of PbfRead.v.  As there, reading fails
    only at the end of the source. *)
From Coq Require Import String ZArith List Bool Lia.
From Verif Require Import Base Utf8 Timestamp Obj PbWire PbMsg PbfRead XmlToken XmlRead.
Import ListNotations.
Open Scope Z_scope.

(** What a call of [next] did: returned an object, reported the end, or panicked. *)
Inductive answer (A : Type) := Gives (a : A) | Ends | Panics.
Arguments Gives {A} a. Arguments Ends {A}. Arguments Panics {A}.

(** ** Blobs *)

(** [vec![0; n as usize]] and [read_exact(..).unwrap()] with the rest of the source: a
    size that is no length panics before anything is read; std's read_exact has read
    everything when it meets the end of the source. *)
Definition read_exact_p (n : Z) (src : bytes) : option bytes * bytes :=
  if n <? 0 then (None, src)
  else match take n src with Some (b, r) => (Some b, r) | None => (None, []) end.

(** get_next_osmdata_blob, src/stringpbf/mod.rs:61-87, src/arcpbf/mod.rs:56-81. *)
Fixpoint next_blob_p_fuel (rt : pbrt) (fuel : nat) (src : bytes) : answer blob * bytes :=
  match fuel with
  | O => (Panics, src)
  | S fuel' =>
      match read_u32_be src with
      | (None, r) => (Ends, r)
      | (Some size, r) =>
          match read_exact_p size r with
          | (None, r) => (Panics, r)
          | (Some hb, r) =>
              match parse_header rt hb with
              | None => (Panics, r)
              | Some h =>
                  match read_exact_p (unwrap_or (bh_datasize h) 0) r with
                  | (None, r) => (Panics, r)
                  | (Some bb, r) =>
                      match bh_type h with
                      | None => (Panics, r)
                      | Some ty =>
                          if negb (str_eqb ty (lit "OSMData")) then next_blob_p_fuel rt fuel' r
                          else match parse_blob rt bb with None => (Panics, r) | Some b => (Gives b, r) end
                      end
                  end
              end
          end
      end
  end.
Definition next_blob_p (rt : pbrt) (src : bytes) : answer blob * bytes := next_blob_p_fuel rt (S (length src)) src.

(** ** Objects pushed before a panic *)

(** [for a in l { results.push(f(a)) }]: what was pushed, and whether the loop came to its
    end (false: it panicked). *)
Fixpoint push_each {A B} (f : A -> outcome B) (l : list A) : list B * bool :=
  match l with
  | [] => ([], true)
  | a :: r => match f a with
              | Panic => ([], false)
              | Ret b => let '(bs, ok) := push_each f r in (b :: bs, ok)
              end
  end.
(** The same for the loop over dense nodes, [for index in 0..num_nodes]. *)
Fixpoint push_dense {A} (step : nat -> dense_state -> outcome (A * dense_state)) (n i : nat) (s : dense_state)
    : list A * bool :=
  match n with
  | O => ([], true)
  | S n' => match step i s with
            | Panic => ([], false)
            | Ret (o, s') => let '(os, ok) := push_dense step n' (S i) s' in (o :: os, ok)
            end
  end.

(** decode_primitive_group_to_objs, src/stringpbf/mod.rs:363-442: the objects go into the
    reader's own buffer. *)
Definition s_push_group (chk : build) (gran lato lono dg : Z) (raw : string_table) (flt : obj_filter) (g : pgroup)
    : list sobj * bool :=
  let dg := Z.quot dg 1000 in
  if nonempty (pg_nodes g) && f_nodes flt then ([], false)
  else if is_some (pg_dense g) && f_nodes flt then
    match s_strings raw with
    | Panic => ([], false)
    | Ret st =>
        let d := unwrap_or (pg_dense g) dn0 in
        push_dense (s_dense_step chk gran lato lono dg st d (unwrap_or (dn_info d) di0))
          (length (dn_id d)) 0 (ds0 (dn_keys_vals d))
    end
  else if nonempty (pg_ways g) && f_ways flt then
    match s_strings raw with Panic => ([], false) | Ret st => push_each (s_decode_way chk st) (pg_ways g) end
  else if nonempty (pg_rels g) && f_rels flt then
    match s_strings raw with Panic => ([], false) | Ret st => push_each (s_decode_rel chk st) (pg_rels g) end
  else ([], true).
(** decode_block_to_objs, src/stringpbf/mod.rs:444-471 *)
Definition s_push_block (chk : build) (flt : obj_filter) (b : pblock) : list sobj * bool :=
  match pb_strings b, pb_groups b with
  | Some raw, [g] => s_push_group chk (granularity b) (lat_offset b) (lon_offset b) (date_granularity b) raw flt g
  | _, _ => ([], false)
  end.
(** src/stringpbf/mod.rs:553-564 *)
Definition s_push_blob (rt : pbrt) (chk : build) (inflate : bytes -> option bytes) (flt : obj_filter) (b : blob)
    : list sobj * bool :=
  match s_blob_data inflate b with
  | Panic => ([], false)
  | Ret [] => ([], true)
  | Ret data => match parse_block rt data with None => ([], false) | Some blk => s_push_block chk flt blk end
  end.

(** decode_block_to_objs, src/stringpbf/node_id_pos.rs:68-131 *)
Definition p_push_group (chk : profile) (gran lato lono : Z) (g : pgroup) : list (Z * latlon) * bool :=
  if nonempty (pg_nodes g) then ([], false)
  else if nonempty (pg_ways g) || nonempty (pg_rels g) then ([], true)
  else match pg_dense g with
       | Some d => push_dense (p_dense_step chk gran lato lono d) (length (dn_id d)) 0 (ds0 [])
       | None => ([], false)
       end.
Fixpoint p_push_groups (chk : profile) (gran lato lono : Z) (gs : list pgroup) : list (Z * latlon) * bool :=
  match gs with
  | [] => ([], true)
  | g :: r =>
      match p_push_group chk gran lato lono g with
      | (l, false) => (l, false)
      | (l, true) => let '(l', ok) := p_push_groups chk gran lato lono r in (l ++ l', ok)
      end
  end.
Definition p_push_block (chk : profile) (b : pblock) : list (Z * latlon) * bool :=
  p_push_groups chk (granularity b) (lat_offset b) (lon_offset b) (pb_groups b).
(** src/stringpbf/node_id_pos.rs:58-63 *)
Definition p_push_blob (rt : pbrt) (chk : profile) (inflate : bytes -> option bytes) (b : blob)
    : list (Z * latlon) * bool :=
  match s_blob_data inflate b with
  | Panic => ([], false)
  | Ret data => match parse_block rt data with None => ([], false) | Some blk => p_push_block chk blk end
  end.

(** src/arcpbf/mod.rs:523-534: the objects go into a vector of their own, which becomes the
    buffer (reversed) only when the whole block has been decoded. *)
Definition a_push_blob (rt : pbrt) (chk : build) (inflate : bytes -> option bytes) (b : blob) : list aobj * bool :=
  match a_blob rt chk inflate b with Panic => ([], false) | Ret l => (rev l, true) end.

(** ** Readers *)

(** [while self.buffer.is_empty() { .. }]: how the loop ended (Gives tt: regularly), and
    the source and the buffer it left. *)
Fixpoint refill_p {A} (rt : pbrt) (decode : blob -> list A * bool) (fuel : nat) (src : bytes)
    : answer unit * (bytes * list A) :=
  match fuel with
  | O => (Panics, (src, []))
  | S fuel' =>
      match next_blob_p rt src with
      | (Ends, r) => (Ends, (r, []))
      | (Panics, r) => (Panics, (r, []))
      | (Gives b, r) =>
          match decode b with
          | (l, false) => (Panics, (r, l))
          | ([], true) => refill_p rt decode fuel' r
          | (l, true) => (Gives tt, (r, l))
          end
      end
  end.

(** PBFReader::next of stringpbf and PBFNodePositionReader::next: the buffer is a queue. *)
Definition next_p {A} (rt : pbrt) (decode : blob -> list A * bool) (s : bytes * list A)
    : answer A * (bytes * list A) :=
  let '(src, buf) := s in
  let '(t, (src, buf)) := match buf with [] => refill_p rt decode (S (length src)) src | _ => (Gives tt, (src, buf)) end in
  match t with
  | Gives _ => match buf with [] => (Ends, (src, [])) | a :: r => (Gives a, (src, r)) end
  | Ends => (Ends, (src, buf))
  | Panics => (Panics, (src, buf))
  end.
Definition s_next_p (rt : pbrt) (chk : build) (inflate : bytes -> option bytes) (flt : obj_filter) :=
  next_p rt (s_push_blob rt chk inflate flt).
Definition p_next_p (rt : pbrt) (chk : profile) (inflate : bytes -> option bytes) :=
  next_p rt (p_push_blob rt chk inflate).
(** PBFReader::next of arcpbf: the buffer is a stack. *)
Definition a_next_p (rt : pbrt) (chk : build) (inflate : bytes -> option bytes) (s : bytes * list aobj)
    : answer aobj * (bytes * list aobj) :=
  let '(src, buf) := s in
  let '(t, (src, buf)) :=
    match buf with [] => refill_p rt (a_push_blob rt chk inflate) (S (length src)) src | _ => (Gives tt, (src, buf)) end in
  match t with
  | Gives _ => match pop buf with (None, r) => (Ends, (src, r)) | (Some a, r) => (Gives a, (src, r)) end
  | Ends => (Ends, (src, buf))
  | Panics => (Panics, (src, buf))
  end.

(** ** XML *)

(** XMLReader::next and OSCReader::next, src/xml/mod.rs:91-132, src/osc/mod.rs:49-90.  They
    panic when the parser yields an error, and xml-rs's iterator yields nothing after an
    error. *)
Definition xml_next_p (l : list item) : answer sobj * list item :=
  match xml_next l with
  | Ret (Some o, r) => (Gives o, r)
  | Ret (None, r) => (Ends, r)
  | Panic => (Panics, [])
  end.
Definition osc_next_p (l : list item) : answer sobj * list item :=
  match osc_next l with
  | Ret (Some o, r) => (Gives o, r)
  | Ret (None, r) => (Ends, r)
  | Panic => (Panics, [])
  end.
