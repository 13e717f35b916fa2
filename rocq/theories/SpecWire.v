(** Every way to encode an OSM PBF message, from the protobuf encoding rules and the
    format's .proto files: specification side.  Field numbers and types below are
    those of fileformat.proto and osmformat.proto. *)
From Coq Require Import String ZArith List Bool Lia.
From Verif Require Import Base Utf8 PbWire PbMsg PropsPbfFile.
Import ListNotations.
Open Scope Z_scope.

(** ** Bytes of a message *)

(** A varint may be padded with leading zero groups, up to ten bytes. *)
Definition varint_of (v : Z) (bs : bytes) : Prop := varint_shape bs /\ (length bs <= 10)%nat /\ base128 bs = v.

(** A field: the tag (number * 8 + wire type), then the value. *)
Inductive field_bytes : field -> bytes -> Prop :=
| fb_var t v tb vb : varint_of t tb -> t mod 8 = 0 -> varint_of v vb -> 0 <= v < 2^64 -> field_bytes (t, WVar v) (tb ++ vb)
| fb_f64 t b tb : varint_of t tb -> t mod 8 = 1 -> length b = 8%nat -> field_bytes (t, WF64 b) (tb ++ b)
| fb_len t b tb lb : varint_of t tb -> t mod 8 = 2 -> varint_of (Z.of_nat (length b)) lb -> Z.of_nat (length b) < 2^64 ->
    field_bytes (t, WLen b) (tb ++ lb ++ b)
| fb_f32 t b tb : varint_of t tb -> t mod 8 = 5 -> length b = 4%nat -> field_bytes (t, WF32 b) (tb ++ b)
| fb_group t tb gb : varint_of t tb -> t mod 8 = 3 -> group_bytes gb -> field_bytes (t, WGroup) (tb ++ gb)
(** Groups, an outdated kind of field: fields up to an end tag. *)
with group_bytes : bytes -> Prop :=
| gb_end t tb : varint_of t tb -> 8 <= t < 2^32 -> t mod 8 = 4 -> group_bytes tb
| gb_field f fb gb : 8 <= fst f < 2^32 -> field_bytes f fb -> group_bytes gb -> group_bytes (fb ++ gb).

(** A message is the sequence of its fields. *)
Definition message_bytes (fs : list field) (bs : bytes) : Prop :=
  Forall (fun f => 8 <= fst f < 2^32) fs /\ exists parts, bs = concat parts /\ Forall2 field_bytes fs parts.

(** ** Values of scalar types and their varints *)

Definition int64_v (x u : Z) : Prop := in_i64 x /\ (0 <= x -> u = x) /\ (x < 0 -> u = x + 2^64).
Definition int32_v (x u : Z) : Prop := in_i32 x /\ (0 <= x -> u = x) /\ (x < 0 -> u = x + 2^64).
Definition uint32_v (x u : Z) : Prop := in_u32 x /\ u = x.
Definition sint64_v (x u : Z) : Prop := in_i64 x /\ (0 <= x -> u = 2 * x) /\ (x < 0 -> u = - 2 * x - 1).
Definition sint32_v (x u : Z) : Prop := in_i32 x /\ (0 <= x -> u = 2 * x) /\ (x < 0 -> u = - 2 * x - 1).
Definition bool_v (x : bool) (u : Z) : Prop := 0 <= u < 2^64 /\ (x = true <-> u <> 0).

(** ** Fields of a message by number *)

(** The fields with number [n] and one of the wire types [ws], in order.  A field with
    the number but another wire type means nothing, like an unknown field. *)
Definition typed (n : Z) (ws : list Z) (fs : list field) : list field :=
  filter (fun f => (fst f / 8 =? n) && existsb (Z.eqb (fst f mod 8)) ws) fs.

(** Singular scalar: absent, or given one or more times; the last one counts. *)
Definition scalar {A} (n : Z) (val : A -> Z -> Prop) (o : option A) (fs : list field) : Prop :=
  match o with
  | None => typed n [0] fs = []
  | Some x => exists pre u, typed n [0] fs = pre ++ [(8 * n, WVar u)] /\ val x u /\
      Forall (fun f => exists y u', f = (8 * n, WVar u') /\ val y u') pre
  end.
(** Singular bytes or string. *)
Definition blob_field {A} (n : Z) (val : A -> bytes -> Prop) (o : option A) (fs : list field) : Prop :=
  match o with
  | None => typed n [2] fs = []
  | Some x => exists pre b, typed n [2] fs = pre ++ [(8 * n + 2, WLen b)] /\ val x b /\
      Forall (fun f => exists y b', f = (8 * n + 2, WLen b') /\ val y b') pre
  end.
(** Repeated scalar: any mixture of packed pieces and single elements. *)
Inductive column_fields {A} (n : Z) (val : A -> Z -> Prop) : list A -> list field -> Prop :=
| cf_nil : column_fields n val [] []
| cf_one x u l fs : val x u -> column_fields n val l fs -> column_fields n val (x :: l) ((8 * n, WVar u) :: fs)
| cf_packed l1 us bss l fs : Forall2 val l1 us -> Forall2 varint_of us bss -> column_fields n val l fs ->
    column_fields n val (l1 ++ l) ((8 * n + 2, WLen (concat bss)) :: fs).
Definition repeated {A} (n : Z) (val : A -> Z -> Prop) (l : list A) (fs : list field) : Prop :=
  column_fields n val l (typed n [0; 2] fs).
(** Repeated bytes. *)
Definition repeated_bytes (n : Z) (l : list bytes) (fs : list field) : Prop :=
  typed n [2] fs = map (fun b => (8 * n + 2, WLen b)) l.
(** Singular message: absent, or given in one or more pieces that are merged. *)
Definition submessage {M} (n : Z) (enc : M -> list field -> Prop) (o : option M) (fs : list field) : Prop :=
  match o with
  | None => typed n [2] fs = []
  | Some m => exists parts bss, parts <> [] /\ Forall2 message_bytes parts bss /\
      typed n [2] fs = map (fun b => (8 * n + 2, WLen b)) bss /\ enc m (concat parts)
  end.
(** Repeated message. *)
Definition repeated_message {M} (n : Z) (enc : M -> list field -> Prop) (l : list M) (fs : list field) : Prop :=
  exists bss, typed n [2] fs = map (fun b => (8 * n + 2, WLen b)) bss /\
    Forall2 (fun m b => exists p, message_bytes p b /\ enc m p) l bss.

(** ** The messages.  Fields with other numbers, or with another
    wire type, may occur and mean nothing. *)

Definition header_enc (m : blob_header) (fs : list field) : Prop :=
  blob_field 1 (fun s b => valid_str s /\ b = utf8 s) (bh_type m) fs /\ blob_field 2 eq (bh_index m) fs /\
  scalar 3 int32_v (bh_datasize m) fs.
Definition blob_enc (m : blob) (fs : list field) : Prop :=
  blob_field 1 eq (bl_raw m) fs /\ scalar 2 int32_v (bl_raw_size m) fs /\ blob_field 3 eq (bl_zlib m) fs /\
  blob_field 4 eq (bl_lzma m) fs /\ blob_field 5 eq (bl_bzip2 m) fs.
Definition strings_enc (m : string_table) (fs : list field) : Prop := repeated_bytes 1 m fs.
Definition info_enc (m : info) (fs : list field) : Prop :=
  scalar 1 int32_v (i_version m) fs /\ scalar 2 int64_v (i_timestamp m) fs /\ scalar 3 int64_v (i_changeset m) fs /\
  scalar 4 int32_v (i_uid m) fs /\ scalar 5 uint32_v (i_user_sid m) fs /\ scalar 6 bool_v (i_visible m) fs.
Definition dense_info_enc (m : dense_info) (fs : list field) : Prop :=
  repeated 1 int32_v (di_version m) fs /\ repeated 2 sint64_v (di_timestamp m) fs /\ repeated 3 sint64_v (di_changeset m) fs /\
  repeated 4 sint32_v (di_uid m) fs /\ repeated 5 sint32_v (di_user_sid m) fs /\ repeated 6 bool_v (di_visible m) fs.
Definition change_set_enc (m : change_set) (fs : list field) : Prop := scalar 1 int64_v m fs.
Definition node_enc (m : pnode) (fs : list field) : Prop :=
  scalar 1 sint64_v (pn_id m) fs /\ repeated 2 uint32_v (pn_keys m) fs /\ repeated 3 uint32_v (pn_vals m) fs /\
  submessage 4 info_enc (pn_info m) fs /\ scalar 8 sint64_v (pn_lat m) fs /\ scalar 9 sint64_v (pn_lon m) fs.
Definition dense_enc (m : dense_nodes) (fs : list field) : Prop :=
  repeated 1 sint64_v (dn_id m) fs /\ submessage 5 dense_info_enc (dn_info m) fs /\
  repeated 8 sint64_v (dn_lat m) fs /\ repeated 9 sint64_v (dn_lon m) fs /\ repeated 10 int32_v (dn_keys_vals m) fs.
Definition way_enc (m : pway) (fs : list field) : Prop :=
  scalar 1 int64_v (pw_id m) fs /\ repeated 2 uint32_v (pw_keys m) fs /\ repeated 3 uint32_v (pw_vals m) fs /\
  submessage 4 info_enc (pw_info m) fs /\ repeated 8 sint64_v (pw_refs m) fs.
(** The member types are an enumeration, encoded as int32. *)
Definition rel_enc (m : prel) (fs : list field) : Prop :=
  scalar 1 int64_v (pr_id m) fs /\ repeated 2 uint32_v (pr_keys m) fs /\ repeated 3 uint32_v (pr_vals m) fs /\
  submessage 4 info_enc (pr_info m) fs /\ repeated 8 int32_v (pr_roles m) fs /\
  repeated 9 sint64_v (pr_memids m) fs /\ repeated 10 int32_v (pr_types m) fs.
Definition group_enc (m : pgroup) (fs : list field) : Prop :=
  repeated_message 1 node_enc (pg_nodes m) fs /\ submessage 2 dense_enc (pg_dense m) fs /\
  repeated_message 3 way_enc (pg_ways m) fs /\ repeated_message 4 rel_enc (pg_rels m) fs /\
  repeated_message 5 change_set_enc (pg_changesets m) fs.
Definition block_enc (m : pblock) (fs : list field) : Prop :=
  submessage 1 strings_enc (pb_strings m) fs /\ repeated_message 2 group_enc (pb_groups m) fs /\
  scalar 17 int32_v (pb_granularity m) fs /\ scalar 18 int32_v (pb_date_granularity m) fs /\
  scalar 19 int64_v (pb_lat_offset m) fs /\ scalar 20 int64_v (pb_lon_offset m) fs.

(** ** Required fields *)

Definition present {A} (o : option A) : Prop := exists x, o = Some x.
Definition header_complete (m : blob_header) : Prop := present (bh_type m) /\ present (bh_datasize m).
Definition block_complete (m : pblock) : Prop :=
  present (pb_strings m) /\ forall g, In g (pb_groups m) ->
    (forall x, In x (pg_nodes g) -> present (pn_id x) /\ present (pn_lat x) /\ present (pn_lon x)) /\
    (forall x, In x (pg_ways g) -> present (pw_id x)) /\ (forall x, In x (pg_rels g) -> present (pr_id x)) /\
    (forall x, In x (pg_changesets g) -> present x).
