(** The sizes of protobuf messages: the generated [compute_size] methods of
    src/stringpbf/fileformat.rs and src/stringpbf/osmformat.rs (src/arcpbf holds
    identical copies), the writers that take the length of a nested message from
    the size stored by [compute_size], and the messages of the header block.
    Line numbers are those of src/stringpbf.  The store for unknown fields is
    dropped, as in PbMsg.v.  The functions of the protobuf runtime that are used
    here are part of the trusted base. *)
From Coq Require Import String ZArith List Bool Lia.
From Verif Require Import Base Utf8 PbWire PbMsg.
Import ListNotations.
Open Scope Z_scope.

(** ** The messages of the header block *)

(** HeaderBBox, osmformat.rs:369-382 *)
Record header_bbox := HeaderBBox {
  hb_left : option Z; hb_right : option Z; hb_top : option Z; hb_bottom : option Z }.
(** HeaderBlock, osmformat.rs:30-56 *)
Record header_block := HeaderBlock {
  hk_bbox : option header_bbox; hk_required : list str; hk_optional : list str;
  hk_program : option str; hk_source : option str; hk_rep_time : option Z;
  hk_rep_seq : option Z; hk_rep_url : option str }.

(** [Message::new]. *)
Definition hb0 := HeaderBBox None None None None.
Definition hk0 := HeaderBlock None [] [] None None None None None.

(** osmformat.rs:491-512 *)
Definition hb_step (rt : pbrt) (m : header_bbox) (f : field) : option header_bbox :=
  let '(t, w) := f in
  let '(HeaderBBox l r u d) := m in
  if t =? 8 then on_var (dec_s64 rt) (fun x => HeaderBBox (Some x) r u d) w
  else if t =? 16 then on_var (dec_s64 rt) (fun x => HeaderBBox l (Some x) u d) w
  else if t =? 24 then on_var (dec_s64 rt) (fun x => HeaderBBox l r (Some x) d) w
  else if t =? 32 then on_var (dec_s64 rt) (fun x => HeaderBBox l r u (Some x)) w
  else Some m.

(** osmformat.rs:229-262 *)
Definition hk_step (rt : pbrt) (m : header_block) (f : field) : option header_block :=
  let '(t, w) := f in
  let '(HeaderBlock b rq op pr so ti sq ur) := m in
  if t =? 10 then on_len (merge_opt rt (hb_step rt) hb0 b)
                         (fun x => HeaderBlock (Some x) rq op pr so ti sq ur) w
  else if t =? 34 then on_len utf8_decode (fun x => HeaderBlock b (rq ++ [x]) op pr so ti sq ur) w
  else if t =? 42 then on_len utf8_decode (fun x => HeaderBlock b rq (op ++ [x]) pr so ti sq ur) w
  else if t =? 130 then on_len utf8_decode (fun x => HeaderBlock b rq op (Some x) so ti sq ur) w
  else if t =? 138 then on_len utf8_decode (fun x => HeaderBlock b rq op pr (Some x) ti sq ur) w
  else if t =? 256 then on_var (dec_i64 rt) (fun x => HeaderBlock b rq op pr so (Some x) sq ur) w
  else if t =? 264 then on_var (dec_i64 rt) (fun x => HeaderBlock b rq op pr so ti (Some x) ur) w
  else if t =? 274 then on_len utf8_decode (fun x => HeaderBlock b rq op pr so ti sq (Some x)) w
  else Some m.

(** osmformat.rs:475-489, 220-227 *)
Definition hb_init (m : header_bbox) : bool :=
  is_some (hb_left m) && is_some (hb_right m) && is_some (hb_top m) && is_some (hb_bottom m).
Definition hk_init (m : header_block) : bool :=
  match hk_bbox m with Some b => hb_init b | None => true end.

(** [Message::parse_from_bytes]. *)
Definition parse_header_block (rt : pbrt) (b : bytes) : option header_block :=
  checked_init hk_init (merge rt (hk_step rt) hk0 b).

(** ** Runtime functions *)

(** [rt::compute_raw_varint64_size]: significant bits, seven per byte. *)
Definition varint_size (v : Z) : Z := if v =? 0 then 1 else (Z.log2 v + 1 + 6) / 7.
(** [rt::tag_size]: the tag is the field number shifted by three bits; the wire
    type does not change its length. *)
Definition tag_size (n : Z) : Z := varint_size (8 * n).
(** [rt::int32_size], [int64_size], [uint32_size], [sint64_size]: [enc] is the
    unsigned number of the scalar type. *)
Definition var_size {A} (n : Z) (enc : A -> Z) (v : A) : Z := tag_size n + varint_size (enc v).
(** [rt::bytes_size], [string_size] (of the UTF-8 bytes). *)
Definition len_size (n : Z) (b : bytes) : Z :=
  tag_size n + varint_size (Z.of_nat (length b)) + Z.of_nat (length b).
(** [rt::vec_packed_int32_size] and so on, [vec_packed_enum_or_unknown_size]. *)
Definition data_size {A} (enc : A -> Z) (l : list A) : Z :=
  fold_right (fun v s => varint_size (enc v) + s) 0 l.
Definition packed_size {A} (n : Z) (enc : A -> Z) (l : list A) : Z :=
  match l with [] => 0 | _ => tag_size n + varint_size (data_size enc l) + data_size enc l end.
(** [rt::vec_packed_bool_size]: a bool takes one byte. *)
Definition packed_bool_size (n : Z) (l : list bool) : Z :=
  match l with
  | [] => 0
  | _ => let len := Z.of_nat (length l) in tag_size n + varint_size len + len
  end.

(** Shapes of the generated code: [if let Some(v) = self.x { my_size += .. }] and
    [for v in &self.x { my_size += .. }]. *)
Definition opt_size {A} (f : A -> Z) (o : option A) : Z := match o with Some v => f v | None => 0 end.
Definition sum_size {A} (f : A -> Z) (l : list A) : Z := fold_right (fun v s => f v + s) 0 l.
(** [let len = v.compute_size(); my_size += 1 + compute_raw_varint64_size(len) + len]. *)
Definition nested (len : Z) : Z := 1 + varint_size len + len.

(** ** [compute_size] *)

(** fileformat.rs:205-219 *)
Definition bh_size (m : blob_header) : Z :=
  opt_size (fun v => len_size 1 (utf8 v)) (bh_type m) + opt_size (len_size 2) (bh_index m) +
  opt_size (var_size 3 enc_i32) (bh_datasize m).
(** fileformat.rs:549-569 *)
Definition bl_size (m : blob) : Z :=
  opt_size (len_size 1) (bl_raw m) + opt_size (var_size 2 enc_i32) (bl_raw_size m) +
  opt_size (len_size 3) (bl_zlib m) + opt_size (len_size 4) (bl_lzma m) +
  opt_size (len_size 5) (bl_bzip2 m).
(** osmformat.rs:516-533 *)
Definition hb_size (m : header_bbox) : Z :=
  opt_size (var_size 1 enc_s64) (hb_left m) + opt_size (var_size 2 enc_s64) (hb_right m) +
  opt_size (var_size 3 enc_s64) (hb_top m) + opt_size (var_size 4 enc_s64) (hb_bottom m).
(** osmformat.rs:266-296 *)
Definition hk_size (m : header_block) : Z :=
  opt_size (fun v => nested (hb_size v)) (hk_bbox m) +
  sum_size (fun v => len_size 4 (utf8 v)) (hk_required m) +
  sum_size (fun v => len_size 5 (utf8 v)) (hk_optional m) +
  opt_size (fun v => len_size 16 (utf8 v)) (hk_program m) +
  opt_size (fun v => len_size 17 (utf8 v)) (hk_source m) +
  opt_size (var_size 32 enc_i64) (hk_rep_time m) +
  opt_size (var_size 33 enc_i64) (hk_rep_seq m) +
  opt_size (fun v => len_size 34 (utf8 v)) (hk_rep_url m).
(** osmformat.rs:1057-1065 *)
Definition st_size (m : string_table) : Z := sum_size (len_size 1) m.
(** osmformat.rs:1295-1318; a bool is [1 + 1]. *)
Definition info_size (m : info) : Z :=
  opt_size (var_size 1 enc_i32) (i_version m) + opt_size (var_size 2 enc_i64) (i_timestamp m) +
  opt_size (var_size 3 enc_i64) (i_changeset m) + opt_size (var_size 4 enc_i32) (i_uid m) +
  opt_size (var_size 5 enc_u32) (i_user_sid m) + opt_size (fun _ => 1 + 1) (i_visible m).
(** osmformat.rs:1477-1488 *)
Definition di_size (m : dense_info) : Z :=
  packed_size 1 enc_i32 (di_version m) + packed_size 2 enc_s64 (di_timestamp m) +
  packed_size 3 enc_s64 (di_changeset m) + packed_size 4 enc_s32 (di_uid m) +
  packed_size 5 enc_s32 (di_user_sid m) + packed_bool_size 6 (di_visible m).
(** osmformat.rs:1607-1615 *)
Definition cs_size (m : change_set) : Z := opt_size (var_size 1 enc_i64) m.
(** osmformat.rs:1800-1820 *)
Definition pn_size (m : pnode) : Z :=
  opt_size (var_size 1 enc_s64) (pn_id m) + packed_size 2 enc_u32 (pn_keys m) +
  packed_size 3 enc_u32 (pn_vals m) + opt_size (fun v => nested (info_size v)) (pn_info m) +
  opt_size (var_size 8 enc_s64) (pn_lat m) + opt_size (var_size 9 enc_s64) (pn_lon m).
(** osmformat.rs:1957-1970 *)
Definition dn_size (m : dense_nodes) : Z :=
  packed_size 1 enc_s64 (dn_id m) + opt_size (fun v => nested (di_size v)) (dn_info m) +
  packed_size 8 enc_s64 (dn_lat m) + packed_size 9 enc_s64 (dn_lon m) +
  packed_size 10 enc_i32 (dn_keys_vals m).
(** osmformat.rs:2121-2136 *)
Definition pw_size (m : pway) : Z :=
  opt_size (var_size 1 enc_i64) (pw_id m) + packed_size 2 enc_u32 (pw_keys m) +
  packed_size 3 enc_u32 (pw_vals m) + opt_size (fun v => nested (info_size v)) (pw_info m) +
  packed_size 8 enc_s64 (pw_refs m).
(** osmformat.rs:2306-2323 *)
Definition pr_size (m : prel) : Z :=
  opt_size (var_size 1 enc_i64) (pr_id m) + packed_size 2 enc_u32 (pr_keys m) +
  packed_size 3 enc_u32 (pr_vals m) + opt_size (fun v => nested (info_size v)) (pr_info m) +
  packed_size 8 enc_i32 (pr_roles m) + packed_size 9 enc_s64 (pr_memids m) +
  packed_size 10 enc_i32 (pr_types m).
(** osmformat.rs:925-950 *)
Definition pg_size (m : pgroup) : Z :=
  sum_size (fun v => nested (pn_size v)) (pg_nodes m) +
  opt_size (fun v => nested (dn_size v)) (pg_dense m) +
  sum_size (fun v => nested (pw_size v)) (pg_ways m) +
  sum_size (fun v => nested (pr_size v)) (pg_rels m) +
  sum_size (fun v => nested (cs_size v)) (pg_changesets m).
(** osmformat.rs:747-772 *)
Definition pb_size (m : pblock) : Z :=
  opt_size (fun v => nested (st_size v)) (pb_strings m) +
  sum_size (fun v => nested (pg_size v)) (pb_groups m) +
  opt_size (var_size 17 enc_i32) (pb_granularity m) +
  opt_size (var_size 19 enc_i64) (pb_lat_offset m) +
  opt_size (var_size 20 enc_i64) (pb_lon_offset m) +
  opt_size (var_size 18 enc_i32) (pb_date_granularity m).

(** ** [write_to_with_cached_sizes] *)

(** [os.write_int32], [write_sint64] and so on; [os.write_bytes], [write_string];
    [os.write_repeated_packed_*], which computes its own length. *)
Definition put_var {A} (n : Z) (enc : A -> Z) (v : A) : bytes := varint (8 * n) ++ varint (enc v).
Definition put_len (n : Z) (b : bytes) : bytes :=
  varint (8 * n + 2) ++ varint (Z.of_nat (length b)) ++ b.
Definition put_packed {A} (n : Z) (enc : A -> Z) (l : list A) : bytes :=
  match l with [] => [] | _ => put_len n (flat_map (fun v => varint (enc v)) l) end.
(** [rt::write_message_field_with_cached_size]: the length is the size that
    [compute_size] stored, as a u32; then the message. *)
Definition put_msg (n : Z) (size : Z) (body : bytes) : bytes :=
  varint (8 * n + 2) ++ varint (as_u32 size) ++ body.
Definition put_opt {A} (f : A -> bytes) (o : option A) : bytes := match o with Some v => f v | None => [] end.

(** fileformat.rs:221-233 *)
Definition bh_write (m : blob_header) : bytes :=
  put_opt (fun v => put_len 1 (utf8 v)) (bh_type m) ++ put_opt (put_len 2) (bh_index m) ++
  put_opt (put_var 3 enc_i32) (bh_datasize m).
(** fileformat.rs:571-589 *)
Definition bl_write (m : blob) : bytes :=
  put_opt (put_len 1) (bl_raw m) ++ put_opt (put_var 2 enc_i32) (bl_raw_size m) ++
  put_opt (put_len 3) (bl_zlib m) ++ put_opt (put_len 4) (bl_lzma m) ++
  put_opt (put_len 5) (bl_bzip2 m).
(** osmformat.rs:535-550 *)
Definition hb_write (m : header_bbox) : bytes :=
  put_opt (put_var 1 enc_s64) (hb_left m) ++ put_opt (put_var 2 enc_s64) (hb_right m) ++
  put_opt (put_var 3 enc_s64) (hb_top m) ++ put_opt (put_var 4 enc_s64) (hb_bottom m).
(** osmformat.rs:298-325 *)
Definition hk_write (m : header_block) : bytes :=
  put_opt (fun v => put_msg 1 (hb_size v) (hb_write v)) (hk_bbox m) ++
  flat_map (fun v => put_len 4 (utf8 v)) (hk_required m) ++
  flat_map (fun v => put_len 5 (utf8 v)) (hk_optional m) ++
  put_opt (fun v => put_len 16 (utf8 v)) (hk_program m) ++
  put_opt (fun v => put_len 17 (utf8 v)) (hk_source m) ++
  put_opt (put_var 32 enc_i64) (hk_rep_time m) ++
  put_opt (put_var 33 enc_i64) (hk_rep_seq m) ++
  put_opt (fun v => put_len 34 (utf8 v)) (hk_rep_url m).
(** osmformat.rs:1067-1073 *)
Definition st_write (m : string_table) : bytes := flat_map (put_len 1) m.
(** osmformat.rs:1320-1341 *)
Definition info_write (m : info) : bytes :=
  put_opt (put_var 1 enc_i32) (i_version m) ++ put_opt (put_var 2 enc_i64) (i_timestamp m) ++
  put_opt (put_var 3 enc_i64) (i_changeset m) ++ put_opt (put_var 4 enc_i32) (i_uid m) ++
  put_opt (put_var 5 enc_u32) (i_user_sid m) ++ put_opt (put_var 6 enc_bool) (i_visible m).
(** osmformat.rs:1490-1499 *)
Definition di_write (m : dense_info) : bytes :=
  put_packed 1 enc_i32 (di_version m) ++ put_packed 2 enc_s64 (di_timestamp m) ++
  put_packed 3 enc_s64 (di_changeset m) ++ put_packed 4 enc_s32 (di_uid m) ++
  put_packed 5 enc_s32 (di_user_sid m) ++ put_packed 6 enc_bool (di_visible m).
(** osmformat.rs:1617-1623 *)
Definition cs_write (m : change_set) : bytes := put_opt (put_var 1 enc_i64) m.
(** osmformat.rs:1822-1839 *)
Definition pn_write (m : pnode) : bytes :=
  put_opt (put_var 1 enc_s64) (pn_id m) ++ put_packed 2 enc_u32 (pn_keys m) ++
  put_packed 3 enc_u32 (pn_vals m) ++
  put_opt (fun v => put_msg 4 (info_size v) (info_write v)) (pn_info m) ++
  put_opt (put_var 8 enc_s64) (pn_lat m) ++ put_opt (put_var 9 enc_s64) (pn_lon m).
(** osmformat.rs:1972-1982 *)
Definition dn_write (m : dense_nodes) : bytes :=
  put_packed 1 enc_s64 (dn_id m) ++ put_opt (fun v => put_msg 5 (di_size v) (di_write v)) (dn_info m) ++
  put_packed 8 enc_s64 (dn_lat m) ++ put_packed 9 enc_s64 (dn_lon m) ++
  put_packed 10 enc_i32 (dn_keys_vals m).
(** osmformat.rs:2138-2150 *)
Definition pw_write (m : pway) : bytes :=
  put_opt (put_var 1 enc_i64) (pw_id m) ++ put_packed 2 enc_u32 (pw_keys m) ++
  put_packed 3 enc_u32 (pw_vals m) ++
  put_opt (fun v => put_msg 4 (info_size v) (info_write v)) (pw_info m) ++
  put_packed 8 enc_s64 (pw_refs m).
(** osmformat.rs:2325-2339 *)
Definition pr_write (m : prel) : bytes :=
  put_opt (put_var 1 enc_i64) (pr_id m) ++ put_packed 2 enc_u32 (pr_keys m) ++
  put_packed 3 enc_u32 (pr_vals m) ++
  put_opt (fun v => put_msg 4 (info_size v) (info_write v)) (pr_info m) ++
  put_packed 8 enc_i32 (pr_roles m) ++ put_packed 9 enc_s64 (pr_memids m) ++
  put_packed 10 enc_i32 (pr_types m).
(** osmformat.rs:952-970 *)
Definition pg_write (m : pgroup) : bytes :=
  flat_map (fun v => put_msg 1 (pn_size v) (pn_write v)) (pg_nodes m) ++
  put_opt (fun v => put_msg 2 (dn_size v) (dn_write v)) (pg_dense m) ++
  flat_map (fun v => put_msg 3 (pw_size v) (pw_write v)) (pg_ways m) ++
  flat_map (fun v => put_msg 4 (pr_size v) (pr_write v)) (pg_rels m) ++
  flat_map (fun v => put_msg 5 (cs_size v) (cs_write v)) (pg_changesets m).
(** osmformat.rs:774-795 *)
Definition pb_write (m : pblock) : bytes :=
  put_opt (fun v => put_msg 1 (st_size v) (st_write v)) (pb_strings m) ++
  flat_map (fun v => put_msg 2 (pg_size v) (pg_write v)) (pb_groups m) ++
  put_opt (put_var 17 enc_i32) (pb_granularity m) ++ put_opt (put_var 19 enc_i64) (pb_lat_offset m) ++
  put_opt (put_var 20 enc_i64) (pb_lon_offset m) ++ put_opt (put_var 18 enc_i32) (pb_date_granularity m).

(** [Message::write_to_bytes]: an error for a message with a missing required
    field; otherwise a buffer of exactly [compute_size] bytes, and a panic if the
    writer does not fill it. *)
Definition write_to_bytes {M} (init : M -> bool) (size : M -> Z) (write : M -> bytes) (m : M) : outcome (option bytes) :=
  if init m then
    if Z.of_nat (length (write m)) =? size m then Ret (Some (write m)) else Panic
  else Ret None.
