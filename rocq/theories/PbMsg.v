(** The messages of the OSM PBF format: the generated readers ([merge_from],
    [is_initialized], [parse_from_bytes]) and writers
    ([write_to_with_cached_sizes]) of src/stringpbf/fileformat.rs and
    src/stringpbf/osmformat.rs; src/arcpbf holds identical copies.  Line numbers
    are those of src/stringpbf.  The store for unknown fields is dropped. *)
From Coq Require Import String ZArith List Bool Lia.
From Verif Require Import Base Utf8 PbWire.
Import ListNotations.
Open Scope Z_scope.

(** ** fileformat.rs *)

(** fileformat.rs:28-39 *)
Record blob_header := BlobHeader {
  bh_type : option str; bh_index : option bytes; bh_datasize : option Z }.
(** fileformat.rs:284-300 *)
Record blob := Blob {
  bl_raw : option bytes; bl_raw_size : option Z; bl_zlib : option bytes;
  bl_lzma : option bytes; bl_bzip2 : option bytes }.

(** ** osmformat.rs *)

(** StringTable, osmformat.rs:1013 ff. *)
Definition string_table : Type := list bytes.
(** Info, osmformat.rs:1104 ff. *)
Record info := Info {
  i_version : option Z; i_timestamp : option Z; i_changeset : option Z;
  i_uid : option Z; i_user_sid : option Z; i_visible : option bool }.
(** DenseInfo, osmformat.rs:1382 ff. *)
Record dense_info := DenseInfo {
  di_version : list Z; di_timestamp : list Z; di_changeset : list Z;
  di_uid : list Z; di_user_sid : list Z; di_visible : list bool }.
(** ChangeSet, osmformat.rs:1541 ff. *)
Definition change_set : Type := option Z.
(** Node, osmformat.rs:1653 ff. *)
Record pnode := PNode {
  pn_id : option Z; pn_keys : list Z; pn_vals : list Z; pn_info : option info;
  pn_lat : option Z; pn_lon : option Z }.
(** DenseNodes, osmformat.rs:1879 ff. *)
Record dense_nodes := DenseNodes {
  dn_id : list Z; dn_info : option dense_info; dn_lat : list Z; dn_lon : list Z;
  dn_keys_vals : list Z }.
(** Way, osmformat.rs:2020 ff. *)
Record pway := PWay {
  pw_id : option Z; pw_keys : list Z; pw_vals : list Z; pw_info : option info;
  pw_refs : list Z }.
(** Relation, osmformat.rs:2188 ff.; member types are the raw enum values. *)
Record prel := PRel {
  pr_id : option Z; pr_keys : list Z; pr_vals : list Z; pr_info : option info;
  pr_roles : list Z; pr_memids : list Z; pr_types : list Z }.
(** PrimitiveGroup, osmformat.rs:836 ff. *)
Record pgroup := PGroup {
  pg_nodes : list pnode; pg_dense : option dense_nodes; pg_ways : list pway;
  pg_rels : list prel; pg_changesets : list change_set }.
(** PrimitiveBlock, osmformat.rs:586 ff. *)
Record pblock := PBlock {
  pb_strings : option string_table; pb_groups : list pgroup;
  pb_granularity : option Z; pb_lat_offset : option Z; pb_lon_offset : option Z;
  pb_date_granularity : option Z }.

(** Default values ([Message::new]). *)
Definition bh0 := BlobHeader None None None.
Definition bl0 := Blob None None None None None.
Definition info0 := Info None None None None None None.
Definition di0 := DenseInfo [] [] [] [] [] [].
Definition pn0 := PNode None [] [] None None None.
Definition dn0 := DenseNodes [] None [] [] [].
Definition pw0 := PWay None [] [] None [].
Definition pr0 := PRel None [] [] None [] [] [].
Definition pg0 := PGroup [] None [] [] [].
Definition pb0 := PBlock None [] None None None None.

(** ** Readers: the match on the tag in each [merge_from].  The wire type is
    part of the tag, so the payload kind is known. *)

(** Apply a setter to a decoded varint / length-delimited payload. *)
Definition on_var {A M} (dec : Z -> option A) (set : A -> M) (w : wval) : option M :=
  match w with WVar u => opt_map set (dec u) | _ => None end.
Definition on_len {A M} (dec : bytes -> option A) (set : A -> M) (w : wval) : option M :=
  match w with WLen b => opt_map set (dec b) | _ => None end.

(** fileformat.rs:183-201 *)
Definition bh_step (rt : pbrt) (m : blob_header) (f : field) : option blob_header :=
  let '(t, w) := f in
  if t =? 10 then on_len utf8_decode (fun v => BlobHeader (Some v) (bh_index m) (bh_datasize m)) w
  else if t =? 18 then on_len Some (fun v => BlobHeader (bh_type m) (Some v) (bh_datasize m)) w
  else if t =? 24 then on_var (dec_i32 rt) (fun v => BlobHeader (bh_type m) (bh_index m) (Some v)) w
  else Some m.

(** fileformat.rs:521-545 *)
Definition bl_step (rt : pbrt) (m : blob) (f : field) : option blob :=
  let '(t, w) := f in
  let '(Blob raw rs z l b) := m in
  if t =? 10 then on_len Some (fun v => Blob (Some v) rs z l b) w
  else if t =? 16 then on_var (dec_i32 rt) (fun v => Blob raw (Some v) z l b) w
  else if t =? 26 then on_len Some (fun v => Blob raw rs (Some v) l b) w
  else if t =? 34 then on_len Some (fun v => Blob raw rs z (Some v) b) w
  else if t =? 42 then on_len Some (fun v => Blob raw rs z l (Some v)) w
  else Some m.

(** osmformat.rs:1041-1053 *)
Definition st_step (rt : pbrt) (m : string_table) (f : field) : option string_table :=
  let '(t, w) := f in
  if t =? 10 then on_len Some (fun v => m ++ [v]) w else Some m.

(** osmformat.rs:1264-1291 *)
Definition info_step (rt : pbrt) (m : info) (f : field) : option info :=
  let '(t, w) := f in
  let '(Info v ts cs uid sid vis) := m in
  if t =? 8 then on_var (dec_i32 rt) (fun x => Info (Some x) ts cs uid sid vis) w
  else if t =? 16 then on_var (dec_i64 rt) (fun x => Info v (Some x) cs uid sid vis) w
  else if t =? 24 then on_var (dec_i64 rt) (fun x => Info v ts (Some x) uid sid vis) w
  else if t =? 32 then on_var (dec_i32 rt) (fun x => Info v ts cs (Some x) sid vis) w
  else if t =? 40 then on_var (dec_u32 rt) (fun x => Info v ts cs uid (Some x) vis) w
  else if t =? 48 then on_var (dec_bool rt) (fun x => Info v ts cs uid sid (Some x)) w
  else Some m.

(** osmformat.rs:1428-1473 *)
Definition di_step (rt : pbrt) (m : dense_info) (f : field) : option dense_info :=
  let '(t, w) := f in
  let '(DenseInfo v ts cs uid sid vis) := m in
  if t =? 10 then on_len (packed rt dec_i32) (fun x => DenseInfo (v ++ x) ts cs uid sid vis) w
  else if t =? 8 then on_var (dec_i32 rt) (fun x => DenseInfo (v ++ [x]) ts cs uid sid vis) w
  else if t =? 18 then on_len (packed rt dec_s64) (fun x => DenseInfo v (ts ++ x) cs uid sid vis) w
  else if t =? 16 then on_var (dec_s64 rt) (fun x => DenseInfo v (ts ++ [x]) cs uid sid vis) w
  else if t =? 26 then on_len (packed rt dec_s64) (fun x => DenseInfo v ts (cs ++ x) uid sid vis) w
  else if t =? 24 then on_var (dec_s64 rt) (fun x => DenseInfo v ts (cs ++ [x]) uid sid vis) w
  else if t =? 34 then on_len (packed rt dec_s32) (fun x => DenseInfo v ts cs (uid ++ x) sid vis) w
  else if t =? 32 then on_var (dec_s32 rt) (fun x => DenseInfo v ts cs (uid ++ [x]) sid vis) w
  else if t =? 42 then on_len (packed rt dec_s32) (fun x => DenseInfo v ts cs uid (sid ++ x) vis) w
  else if t =? 40 then on_var (dec_s32 rt) (fun x => DenseInfo v ts cs uid (sid ++ [x]) vis) w
  else if t =? 50 then on_len (packed rt dec_bool) (fun x => DenseInfo v ts cs uid sid (vis ++ x)) w
  else if t =? 48 then on_var (dec_bool rt) (fun x => DenseInfo v ts cs uid sid (vis ++ [x])) w
  else Some m.

(** osmformat.rs:1591-1603 *)
Definition cs_step (rt : pbrt) (m : change_set) (f : field) : option change_set :=
  let '(t, w) := f in
  if t =? 8 then on_var (dec_i64 rt) (fun x => Some x) w else Some m.

(** [read_singular_message_into_field]: merge into the present value or into a
    new one. *)
Definition merge_opt {M} (rt : pbrt) (step : M -> field -> option M) (d : M) (cur : option M)
    (b : bytes) : option M :=
  merge rt step (unwrap_or cur d) b.

(** osmformat.rs:1763-1796 *)
Definition pn_step (rt : pbrt) (m : pnode) (f : field) : option pnode :=
  let '(t, w) := f in
  let '(PNode id ks vs inf lat lon) := m in
  if t =? 8 then on_var (dec_s64 rt) (fun x => PNode (Some x) ks vs inf lat lon) w
  else if t =? 18 then on_len (packed rt dec_u32) (fun x => PNode id (ks ++ x) vs inf lat lon) w
  else if t =? 16 then on_var (dec_u32 rt) (fun x => PNode id (ks ++ [x]) vs inf lat lon) w
  else if t =? 26 then on_len (packed rt dec_u32) (fun x => PNode id ks (vs ++ x) inf lat lon) w
  else if t =? 24 then on_var (dec_u32 rt) (fun x => PNode id ks (vs ++ [x]) inf lat lon) w
  else if t =? 34 then on_len (merge_opt rt (info_step rt) info0 inf)
                              (fun x => PNode id ks vs (Some x) lat lon) w
  else if t =? 64 then on_var (dec_s64 rt) (fun x => PNode id ks vs inf (Some x) lon) w
  else if t =? 72 then on_var (dec_s64 rt) (fun x => PNode id ks vs inf lat (Some x)) w
  else Some m.

(** osmformat.rs:1917-1953 *)
Definition dn_step (rt : pbrt) (m : dense_nodes) (f : field) : option dense_nodes :=
  let '(t, w) := f in
  let '(DenseNodes id inf lat lon kv) := m in
  if t =? 10 then on_len (packed rt dec_s64) (fun x => DenseNodes (id ++ x) inf lat lon kv) w
  else if t =? 8 then on_var (dec_s64 rt) (fun x => DenseNodes (id ++ [x]) inf lat lon kv) w
  else if t =? 42 then on_len (merge_opt rt (di_step rt) di0 inf)
                              (fun x => DenseNodes id (Some x) lat lon kv) w
  else if t =? 66 then on_len (packed rt dec_s64) (fun x => DenseNodes id inf (lat ++ x) lon kv) w
  else if t =? 64 then on_var (dec_s64 rt) (fun x => DenseNodes id inf (lat ++ [x]) lon kv) w
  else if t =? 74 then on_len (packed rt dec_s64) (fun x => DenseNodes id inf lat (lon ++ x) kv) w
  else if t =? 72 then on_var (dec_s64 rt) (fun x => DenseNodes id inf lat (lon ++ [x]) kv) w
  else if t =? 82 then on_len (packed rt dec_i32) (fun x => DenseNodes id inf lat lon (kv ++ x)) w
  else if t =? 80 then on_var (dec_i32 rt) (fun x => DenseNodes id inf lat lon (kv ++ [x])) w
  else Some m.

(** osmformat.rs:2084-2117 *)
Definition pw_step (rt : pbrt) (m : pway) (f : field) : option pway :=
  let '(t, w) := f in
  let '(PWay id ks vs inf refs) := m in
  if t =? 8 then on_var (dec_i64 rt) (fun x => PWay (Some x) ks vs inf refs) w
  else if t =? 18 then on_len (packed rt dec_u32) (fun x => PWay id (ks ++ x) vs inf refs) w
  else if t =? 16 then on_var (dec_u32 rt) (fun x => PWay id (ks ++ [x]) vs inf refs) w
  else if t =? 26 then on_len (packed rt dec_u32) (fun x => PWay id ks (vs ++ x) inf refs) w
  else if t =? 24 then on_var (dec_u32 rt) (fun x => PWay id ks (vs ++ [x]) inf refs) w
  else if t =? 34 then on_len (merge_opt rt (info_step rt) info0 inf)
                              (fun x => PWay id ks vs (Some x) refs) w
  else if t =? 66 then on_len (packed rt dec_s64) (fun x => PWay id ks vs inf (refs ++ x)) w
  else if t =? 64 then on_var (dec_s64 rt) (fun x => PWay id ks vs inf (refs ++ [x])) w
  else Some m.

(** osmformat.rs:2257-2302 *)
Definition pr_step (rt : pbrt) (m : prel) (f : field) : option prel :=
  let '(t, w) := f in
  let '(PRel id ks vs inf roles mem ty) := m in
  if t =? 8 then on_var (dec_i64 rt) (fun x => PRel (Some x) ks vs inf roles mem ty) w
  else if t =? 18 then on_len (packed rt dec_u32) (fun x => PRel id (ks ++ x) vs inf roles mem ty) w
  else if t =? 16 then on_var (dec_u32 rt) (fun x => PRel id (ks ++ [x]) vs inf roles mem ty) w
  else if t =? 26 then on_len (packed rt dec_u32) (fun x => PRel id ks (vs ++ x) inf roles mem ty) w
  else if t =? 24 then on_var (dec_u32 rt) (fun x => PRel id ks (vs ++ [x]) inf roles mem ty) w
  else if t =? 34 then on_len (merge_opt rt (info_step rt) info0 inf)
                              (fun x => PRel id ks vs (Some x) roles mem ty) w
  else if t =? 66 then on_len (packed rt dec_i32) (fun x => PRel id ks vs inf (roles ++ x) mem ty) w
  else if t =? 64 then on_var (dec_i32 rt) (fun x => PRel id ks vs inf (roles ++ [x]) mem ty) w
  else if t =? 74 then on_len (packed rt dec_s64) (fun x => PRel id ks vs inf roles (mem ++ x) ty) w
  else if t =? 72 then on_var (dec_s64 rt) (fun x => PRel id ks vs inf roles (mem ++ [x]) ty) w
  else if t =? 80 then on_var (dec_i32 rt) (fun x => PRel id ks vs inf roles mem (ty ++ [x])) w
  else if t =? 82 then on_len (packed rt dec_i32) (fun x => PRel id ks vs inf roles mem (ty ++ x)) w
  else Some m.

(** osmformat.rs:897-921 *)
Definition pg_step (rt : pbrt) (m : pgroup) (f : field) : option pgroup :=
  let '(t, w) := f in
  let '(PGroup ns d ws rs cs) := m in
  if t =? 10 then on_len (merge rt (pn_step rt) pn0) (fun x => PGroup (ns ++ [x]) d ws rs cs) w
  else if t =? 18 then on_len (merge_opt rt (dn_step rt) dn0 d) (fun x => PGroup ns (Some x) ws rs cs) w
  else if t =? 26 then on_len (merge rt (pw_step rt) pw0) (fun x => PGroup ns d (ws ++ [x]) rs cs) w
  else if t =? 34 then on_len (merge rt (pr_step rt) pr0) (fun x => PGroup ns d ws (rs ++ [x]) cs) w
  else if t =? 42 then on_len (merge rt (cs_step rt) None) (fun x => PGroup ns d ws rs (cs ++ [x])) w
  else Some m.

(** osmformat.rs:716-743 *)
Definition pb_step (rt : pbrt) (m : pblock) (f : field) : option pblock :=
  let '(t, w) := f in
  let '(PBlock st gs gr la lo dg) := m in
  if t =? 10 then on_len (merge_opt rt (st_step rt) [] st) (fun x => PBlock (Some x) gs gr la lo dg) w
  else if t =? 18 then on_len (merge rt (pg_step rt) pg0) (fun x => PBlock st (gs ++ [x]) gr la lo dg) w
  else if t =? 136 then on_var (dec_i32 rt) (fun x => PBlock st gs (Some x) la lo dg) w
  else if t =? 152 then on_var (dec_i64 rt) (fun x => PBlock st gs gr (Some x) lo dg) w
  else if t =? 160 then on_var (dec_i64 rt) (fun x => PBlock st gs gr la (Some x) dg) w
  else if t =? 144 then on_var (dec_i32 rt) (fun x => PBlock st gs gr la lo (Some x)) w
  else Some m.

(** ** [is_initialized] *)

(** osmformat.rs:1745-1761, 2072-2082, 2245-2255, 1584-1589 *)
Definition pn_init (n : pnode) : bool := is_some (pn_id n) && is_some (pn_lat n) && is_some (pn_lon n).
Definition pw_init (w : pway) : bool := is_some (pw_id w).
Definition pr_init (r : prel) : bool := is_some (pr_id r).
Definition cs_init (c : change_set) : bool := is_some c.
(** osmformat.rs:868-895 *)
Definition pg_init (g : pgroup) : bool :=
  forallb pn_init (pg_nodes g) && forallb pw_init (pg_ways g) &&
  forallb pr_init (pg_rels g) && forallb cs_init (pg_changesets g).
(** osmformat.rs:699-714 *)
Definition pb_init (b : pblock) : bool := is_some (pb_strings b) && forallb pg_init (pb_groups b).
(** fileformat.rs:173-181 *)
Definition bh_init (h : blob_header) : bool := is_some (bh_type h) && is_some (bh_datasize h).

(** ** [Message::parse_from_bytes]: merge into a new message, then check that it
    is initialised.  None is an error. *)

Definition checked_init {M} (init : M -> bool) (o : option M) : option M :=
  match o with Some m => if init m then Some m else None | None => None end.
Definition parse_header (rt : pbrt) (b : bytes) : option blob_header :=
  checked_init bh_init (merge rt (bh_step rt) bh0 b).
Definition parse_blob (rt : pbrt) (b : bytes) : option blob := merge rt (bl_step rt) bl0 b.
Definition parse_block (rt : pbrt) (b : bytes) : option pblock :=
  checked_init pb_init (merge rt (pb_step rt) pb0 b).

(** Accessors with defaults, osmformat.rs:621-623, 640-642, 659-661, 678-680. *)
Definition granularity (b : pblock) : Z := unwrap_or (pb_granularity b) 100.
Definition lat_offset (b : pblock) : Z := unwrap_or (pb_lat_offset b) 0.
Definition lon_offset (b : pblock) : Z := unwrap_or (pb_lon_offset b) 0.
Definition date_granularity (b : pblock) : Z := unwrap_or (pb_date_granularity b) 1000.

(** ** Writers: [write_to_with_cached_sizes] *)

(** fileformat.rs:221-233 *)
Definition bh_fields (m : blob_header) : list field :=
  f_len 1 utf8 (bh_type m) ++ f_len 2 (fun b => b) (bh_index m) ++ f_var 3 enc_i32 (bh_datasize m).
(** fileformat.rs:571-589 *)
Definition bl_fields (m : blob) : list field :=
  f_len 1 (fun b => b) (bl_raw m) ++ f_var 2 enc_i32 (bl_raw_size m) ++
  f_len 3 (fun b => b) (bl_zlib m) ++ f_len 4 (fun b => b) (bl_lzma m) ++
  f_len 5 (fun b => b) (bl_bzip2 m).
(** osmformat.rs:1067-1073 *)
Definition st_fields (m : string_table) : list field := f_rep 1 (fun b => b) m.
(** osmformat.rs:1320-1341 *)
Definition info_fields (m : info) : list field :=
  f_var 1 enc_i32 (i_version m) ++ f_var 2 enc_i64 (i_timestamp m) ++
  f_var 3 enc_i64 (i_changeset m) ++ f_var 4 enc_i32 (i_uid m) ++
  f_var 5 enc_u32 (i_user_sid m) ++ f_var 6 enc_bool (i_visible m).
(** osmformat.rs:1490-1499 *)
Definition di_fields (m : dense_info) : list field :=
  f_packed 1 enc_i32 (di_version m) ++ f_packed 2 enc_s64 (di_timestamp m) ++
  f_packed 3 enc_s64 (di_changeset m) ++ f_packed 4 enc_s32 (di_uid m) ++
  f_packed 5 enc_s32 (di_user_sid m) ++ f_packed 6 enc_bool (di_visible m).
(** osmformat.rs:1617-1623 *)
Definition cs_fields (m : change_set) : list field := f_var 1 enc_i64 m.
(** osmformat.rs:1822-1839 *)
Definition pn_fields (m : pnode) : list field :=
  f_var 1 enc_s64 (pn_id m) ++ f_packed 2 enc_u32 (pn_keys m) ++ f_packed 3 enc_u32 (pn_vals m) ++
  f_len 4 (fun i => ser (info_fields i)) (pn_info m) ++
  f_var 8 enc_s64 (pn_lat m) ++ f_var 9 enc_s64 (pn_lon m).
(** osmformat.rs:1972-1982 *)
Definition dn_fields (m : dense_nodes) : list field :=
  f_packed 1 enc_s64 (dn_id m) ++ f_len 5 (fun i => ser (di_fields i)) (dn_info m) ++
  f_packed 8 enc_s64 (dn_lat m) ++ f_packed 9 enc_s64 (dn_lon m) ++
  f_packed 10 enc_i32 (dn_keys_vals m).
(** osmformat.rs:2138-2150 *)
Definition pw_fields (m : pway) : list field :=
  f_var 1 enc_i64 (pw_id m) ++ f_packed 2 enc_u32 (pw_keys m) ++ f_packed 3 enc_u32 (pw_vals m) ++
  f_len 4 (fun i => ser (info_fields i)) (pw_info m) ++ f_packed 8 enc_s64 (pw_refs m).
(** osmformat.rs:2325-2339 *)
Definition pr_fields (m : prel) : list field :=
  f_var 1 enc_i64 (pr_id m) ++ f_packed 2 enc_u32 (pr_keys m) ++ f_packed 3 enc_u32 (pr_vals m) ++
  f_len 4 (fun i => ser (info_fields i)) (pr_info m) ++ f_packed 8 enc_i32 (pr_roles m) ++
  f_packed 9 enc_s64 (pr_memids m) ++ f_packed 10 enc_i32 (pr_types m).
(** osmformat.rs:952-970 *)
Definition pg_fields (m : pgroup) : list field :=
  f_rep 1 (fun n => ser (pn_fields n)) (pg_nodes m) ++
  f_len 2 (fun d => ser (dn_fields d)) (pg_dense m) ++
  f_rep 3 (fun w => ser (pw_fields w)) (pg_ways m) ++
  f_rep 4 (fun r => ser (pr_fields r)) (pg_rels m) ++
  f_rep 5 (fun c => ser (cs_fields c)) (pg_changesets m).
(** osmformat.rs:774-795 *)
Definition pb_fields (m : pblock) : list field :=
  f_len 1 (fun s => ser (st_fields s)) (pb_strings m) ++
  f_rep 2 (fun g => ser (pg_fields g)) (pb_groups m) ++
  f_var 17 enc_i32 (pb_granularity m) ++ f_var 19 enc_i64 (pb_lat_offset m) ++
  f_var 20 enc_i64 (pb_lon_offset m) ++ f_var 18 enc_i32 (pb_date_granularity m).

(** [Message::write_to_bytes]. *)
Definition ser_header (m : blob_header) : bytes := ser (bh_fields m).
Definition ser_blob (m : blob) : bytes := ser (bl_fields m).
Definition ser_block (m : pblock) : bytes := ser (pb_fields m).
