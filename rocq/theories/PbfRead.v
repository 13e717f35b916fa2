(** The PBF readers: src/stringpbf/mod.rs, src/stringpbf/node_id_pos.rs and
    src/arcpbf/mod.rs.

    The source is the list of bytes still to be read; reading fails only at its
    end (other I/O errors are not modelled).  [rt] are the choices of the
    protobuf library, [chk] those of the build (overflow checks, standard library), and
    [inflate] is the zlib decoder (None: error); the theorems quantify over all
    three.  Memory limits are not modelled. *)
From Coq Require Import String ZArith List Bool Lia.
From Verif Require Import Base Utf8 Timestamp Obj PbWire PbMsg.
Import ListNotations.
Open Scope Z_scope.

(** COORD_PRECISION_NANOS, src/lib.rs:66. *)
Definition COORD_PRECISION_NANOS : Z := 100.

(** [v[i]]: panics when out of range. *)
Definition at_ {A} (l : list A) (i : nat) : outcome A := unwrap (nth_error l i).
(** [v[i as usize]] for a signed or unsigned integer [i]: a negative index becomes
    huge and is out of range. *)
Definition at_z {A} (l : list A) (i : Z) : outcome A :=
  if i <? 0 then Panic else
  if Z.of_nat (length l) <=? i then Panic else at_ l (Z.to_nat i).

(** [i32::try_from(..).expect(..)]. *)
Definition try_i32 (z : Z) : outcome Z := if in_i32b z then Ret z else Panic.

(** [assert!]. *)
Definition assert (b : bool) : outcome unit := if b then Ret tt else Panic.

(** ** Files and blobs *)

(** [read_u32::<BigEndian>]: None on fewer than four bytes (which are consumed). *)
Definition read_u32_be (src : bytes) : option Z * bytes :=
  match src with
  | a :: b :: c :: d :: r => (Some (((a * 256 + b) * 256 + c) * 256 + d), r)
  | _ => (None, [])
  end.

(** [vec![0; n as usize]] and [read_exact(..).unwrap()]: a negative size exceeds
    the capacity of a vector; too few bytes are an error. *)
Definition read_exact (n : Z) (src : bytes) : outcome (bytes * bytes) :=
  if n <? 0 then Panic else unwrap (take n src).

(** get_next_osmdata_blob, src/stringpbf/mod.rs:61-87; src/arcpbf/mod.rs:56-81 is the
    same but for [datasize.unwrap()] in place of [datasize()], which can only
    differ for a header without datasize, and such a header does not parse.
    Each turn of the loop consumes at least four bytes, so the length of the
    source bounds the number of turns. *)
Fixpoint next_blob_fuel (rt : pbrt) (fuel : nat) (src : bytes) : outcome (option blob * bytes) :=
  match fuel with
  | O => Panic
  | S fuel' =>
      match read_u32_be src with
      | (None, r) => Ret (None, r)
      | (Some size, r) =>
          do (hb, r) <- read_exact size r;
          do h <- unwrap (parse_header rt hb);
          do (bb, r) <- read_exact (unwrap_or (bh_datasize h) 0) r;
          do ty <- unwrap (bh_type h);
          if negb (str_eqb ty (lit "OSMData")) then next_blob_fuel rt fuel' r
          else do b <- unwrap (parse_blob rt bb); Ret (Some b, r)
      end
  end.
Definition next_blob (rt : pbrt) (src : bytes) : outcome (option blob * bytes) :=
  next_blob_fuel rt (S (length src)) src.

(** blob_raw_data, src/stringpbf/mod.rs:35-46: [buf] has just been cleared, so
    [copy_from_slice] panics unless [raw] is empty too. *)
Definition s_blob_data (inflate : bytes -> option bytes) (b : blob) : outcome bytes :=
  match bl_raw b with
  | Some raw => match raw with [] => Ret [] | _ => Panic end
  | None =>
      match bl_zlib b with
      | Some z => unwrap (inflate z)
      | None => Ret []
      end
  end.

(** blob_raw_data(..).unwrap(), src/arcpbf/mod.rs:27-41, 523.  A negative raw_size
    exceeds the capacity of a vector. *)
Definition a_blob_data (inflate : bytes -> option bytes) (b : blob) : outcome bytes :=
  match bl_raw b with
  | Some raw => Ret raw
  | None =>
      match bl_zlib b with
      | Some z =>
          do n <- unwrap (bl_raw_size b);
          if n <? 0 then Panic else unwrap (inflate z)
      | None => Panic
      end
  end.

(** ** Dense nodes *)

(** The accumulators of decode_dense_nodes, src/stringpbf/mod.rs:127-138,
    src/arcpbf/mod.rs:122-133.  [keys_vals_index] is represented by what is left of
    the column. *)
Record dense_state := DS {
  last_id : Z; last_lat : Z; last_lon : Z; last_timestamp : Z;
  last_changeset : Z; last_uid : Z; last_user_sid : Z; kv_left : list Z }.
Definition ds0 (kv : list Z) : dense_state := DS 0 0 0 0 0 0 0 kv.

(** The position of a dense node, src/stringpbf/mod.rs:142-161 (copies:
    src/arcpbf/mod.rs:137-158, src/stringpbf/node_id_pos.rs:94-118).  Rust's integer division
    truncates. *)
Definition dense_raw (chk : profile) (col : list Z) (i : nat) (last : Z) : outcome Z :=
  do d <- at_ col i;
  do s <- arith_i64 chk (d + last);
  try_i32 s.
Definition dense_internal (chk : profile) (gran off raw : Z) : outcome Z :=
  let scale_factor := Z.quot gran COORD_PRECISION_NANOS in
  do x <- arith_i32 chk (raw * scale_factor);
  arith_i32 chk (x + as_i32 (Z.quot off COORD_PRECISION_NANOS)).

(** The tag loop of one node: pairs of indexes up to the delimiter 0,
    src/stringpbf/mod.rs:163-181, src/arcpbf/mod.rs:164-177. *)
Fixpoint take_tags (kv : list Z) : outcome (list (Z * Z) * list Z) :=
  match kv with
  | [] => Panic
  | k :: r =>
      if k =? 0 then Ret ([], r)
      else
        match r with
        | [] => Panic
        | v :: r' => do (ps, lft) <- take_tags r'; Ret ((k, v) :: ps, lft)
        end
  end.

(** Looking up both strings of a tag (String), src/stringpbf/mod.rs:174-177. *)
Definition s_tag_at (st : list str) (kv : Z * Z) : outcome (str * str) :=
  do k <- at_z st (fst kv); do v <- at_z st (snd kv); Ret (k, v).
(** Arc: a tag one of whose strings is not UTF-8 is dropped, src/arcpbf/mod.rs:179-191. *)
Definition a_tag_at (st : list (option str)) (kv : Z * Z) : outcome (option (str * str)) :=
  do k <- at_z st (fst kv); do v <- at_z st (snd kv);
  Ret (match k, v with Some k, Some v => Some (k, v) | _, _ => None end).
Definition a_tags_at (st : list (option str)) (kvs : list (Z * Z)) : outcome (list (str * str)) :=
  do l <- omapM (a_tag_at st) kvs; Ret (filter_map (fun o => o) l).

(** The metadata of a dense node, src/stringpbf/mod.rs:183-207, src/arcpbf/mod.rs:195-218.
    [user] is the lookup of the user name.  [dg] is date_granularity / 1000. *)
Definition dense_meta (chk : profile) (dg : Z) (user : Z -> outcome str) (di : dense_info)
    (i : nat) (s : dense_state) (id : Z) : outcome (meta * (Z * Z * Z * Z)) :=
  do c <- at_ (di_changeset di) i;
  do cs <- arith_i64 chk (c + last_changeset s);
  do u <- at_ (di_uid di) i;
  do uid <- arith_i32 chk (u + last_uid s);
  do us <- at_ (di_user_sid di) i;
  do sid <- arith_i32 chk (us + last_user_sid s);
  do t <- at_ (di_timestamp di) i;
  do ts <- arith_i32 chk (as_i32 t + last_timestamp s);
  do ts <- arith_i32 chk (ts * dg);
  do _ <- assert (uid <? 2^31 - 1);
  do name <- user sid;
  do v <- at_ (di_version di) i;
  Ret (Meta id (Some (as_u32 v)) (negb (unwrap_or (nth_error (di_visible di) i) true))
            (Some (as_u32 cs)) (Some (EpochNumber ts)) (Some (as_u32 uid)) (Some name),
       (ts, cs, uid, sid)).

(** One turn of the loop, String: src/stringpbf/mod.rs:140-208.  [di] is the
    group's info or the default one. *)
Definition s_dense_step (chk : profile) (gran lato lono dg : Z) (st : list str) (d : dense_nodes)
    (di : dense_info) (i : nat) (s : dense_state) : outcome (sobj * dense_state) :=
  do di_ <- at_ (dn_id d) i;
  do id <- arith_i64 chk (di_ + last_id s);
  do raw_lat <- dense_raw chk (dn_lat d) i (last_lat s);
  do raw_lon <- dense_raw chk (dn_lon d) i (last_lon s);
  do lat <- dense_internal chk gran lato raw_lat;
  do lon <- dense_internal chk gran lono raw_lon;
  do (ps, lft) <- take_tags (kv_left s);
  do tags <- omapM (s_tag_at st) ps;
  do (m, acc) <- dense_meta chk dg (at_z st) di i s id;
  let '(ts, cs, uid, sid) := acc in
  Ret (SNode (SN m tags (Some (lat, lon))), DS id raw_lat raw_lon ts cs uid sid lft).

(** One turn of the loop, Arc: src/arcpbf/mod.rs:135-219.  With an empty column
    nodes have no tag list. *)
Definition a_dense_step (chk : profile) (gran lato lono dg : Z) (st : list (option str)) (d : dense_nodes)
    (di : dense_info) (i : nat) (s : dense_state) : outcome (aobj * dense_state) :=
  do di_ <- at_ (dn_id d) i;
  do id <- arith_i64 chk (di_ + last_id s);
  do raw_lat <- dense_raw chk (dn_lat d) i (last_lat s);
  do raw_lon <- dense_raw chk (dn_lon d) i (last_lon s);
  do lat <- dense_internal chk gran lato raw_lat;
  do lon <- dense_internal chk gran lono raw_lon;
  do (tags, lft) <- (match dn_keys_vals d with
                      | [] => Ret (None, [])
                      | _ => do (ps, lft) <- take_tags (kv_left s);
                             do ts <- a_tags_at st ps; Ret (Some ts, lft)
                      end);
  do (m, acc) <- dense_meta chk dg (fun i => do o <- at_z st i; unwrap o) di i s id;
  let '(ts, cs, uid, sid) := acc in
  Ret (ANode (AN m tags (Some (lat, lon))), DS id raw_lat raw_lon ts cs uid sid lft).

(** One turn of the loop of the position reader, src/stringpbf/node_id_pos.rs:92-121. *)
Definition p_dense_step (chk : profile) (gran lato lono : Z) (d : dense_nodes)
    (i : nat) (s : dense_state) : outcome ((Z * latlon) * dense_state) :=
  do di_ <- at_ (dn_id d) i;
  do id <- arith_i64 chk (di_ + last_id s);
  do raw_lat <- dense_raw chk (dn_lat d) i (last_lat s);
  do raw_lon <- dense_raw chk (dn_lon d) i (last_lon s);
  do lat <- dense_internal chk gran lato raw_lat;
  do lon <- dense_internal chk gran lono raw_lon;
  Ret ((id, (lat, lon)), DS id raw_lat raw_lon 0 0 0 0 []).

(** [for index in 0..num_nodes]: [n] turns from index [i]. *)
Fixpoint dense_loop {A} (step : nat -> dense_state -> outcome (A * dense_state))
    (n i : nat) (s : dense_state) : outcome (list A) :=
  match n with
  | O => Ret []
  | S n' => do (o, s') <- step i s; do r <- dense_loop step n' (S i) s'; Ret (o :: r)
  end.

(** decode_dense_nodes, src/stringpbf/mod.rs:102-211 *)
Definition s_decode_dense (chk : profile) (gran lato lono dg : Z) (st : list str) (d : dense_nodes)
    : outcome (list sobj) :=
  dense_loop (s_dense_step chk gran lato lono dg st d (unwrap_or (dn_info d) di0))
    (length (dn_id d)) 0 (ds0 (dn_keys_vals d)).
(** decode_dense_nodes, src/arcpbf/mod.rs:96-223 *)
Definition a_decode_dense (chk : profile) (gran lato lono dg : Z) (st : list (option str))
    (d : dense_nodes) : outcome (list aobj) :=
  dense_loop (a_dense_step chk gran lato lono dg st d (unwrap_or (dn_info d) di0))
    (length (dn_id d)) 0 (ds0 (dn_keys_vals d)).
(** src/stringpbf/node_id_pos.rs:80-122 *)
Definition p_decode_dense (chk : profile) (gran lato lono : Z) (d : dense_nodes)
    : outcome (list (Z * latlon)) :=
  dense_loop (p_dense_step chk gran lato lono d) (length (dn_id d)) 0 (ds0 []).

(** ** Ways and relations *)

(** The running sum of references, src/stringpbf/mod.rs:236-246, 305-313 and copies. *)
Fixpoint sum_refs_from (chk : profile) (last : Z) (l : list Z) : outcome (list Z) :=
  match l with
  | [] => Ret []
  | d :: r => do x <- arith_i64 chk (last + d); do xs <- sum_refs_from chk x r; Ret (x :: xs)
  end.
Definition sum_refs (chk : profile) (l : list Z) : outcome (list Z) :=
  match l with
  | [] => Ret []
  | d :: r => do xs <- sum_refs_from chk d r; Ret (d :: xs)
  end.

(** Tags of a way or relation, String: lengths must agree, src/stringpbf/mod.rs:225-235,
    288-298. *)
Definition s_tags_of (st : list str) (keys vals : list Z) : outcome (list (str * str)) :=
  do _ <- assert (Nat.eqb (length keys) (length vals));
  omapM (s_tag_at st) (combine keys vals).

(** Arc: [zip] stops at the shorter side, perhaps after evaluating one key more if
    the keys are longer, src/arcpbf/mod.rs:237-252, 310-325. *)
Definition a_key_rest (chk : build) (st : list (option str)) (keys vals : list Z) : outcome unit :=
  match nth_error keys (length vals) with
  | Some k => if a_tag_rest chk (length keys) (length vals) then do _ <- at_z st k; Ret tt else Ret tt
  | None => Ret tt
  end.
Definition a_tags_of (chk : build) (st : list (option str)) (keys vals : list Z) : outcome (list (str * str)) :=
  do l <- a_tags_at st (combine keys vals);
  do _ <- a_key_rest chk st keys vals;
  Ret l.

(** MemberType, osmformat.rs:2376-2380: an unknown value makes [unwrap] panic. *)
Definition member_type (t : Z) : outcome objtype :=
  if t =? 0 then Ret TNode else if t =? 1 then Ret TWay else if t =? 2 then Ret TRelation else Panic.

(** types.zip(ids).zip(roles), src/stringpbf/mod.rs:299-332, src/arcpbf/mod.rs:327-360,
    evaluated element by element. *)
Fixpoint zip_members {R} (role : Z -> outcome R) (types ids roles : list Z)
    : outcome (list (objtype * Z * R)) :=
  match types, ids, roles with
  | t :: types', id :: ids', r :: roles' =>
      do ty <- member_type t; do x <- role r; do l <- zip_members role types' ids' roles'; Ret ((ty, id, x) :: l)
  | _, _, _ => Ret []
  end.
(** The type after the last member, if there is one and it is looked at. *)
Definition rest_type (rest : nat -> nat -> nat -> bool) (types ids roles : list Z) : outcome unit :=
  match nth_error types (Nat.min (length ids) (length roles)) with
  | Some t => if rest (length types) (length ids) (length roles) then do _ <- member_type t; Ret tt else Ret tt
  | None => Ret tt
  end.
(** Arc drops members whose role is not UTF-8. *)
Definition keep_member (m : objtype * Z * option str) : option member :=
  let '(t, i, r) := m in match r with Some r => Some (t, i, r) | None => None end.

(** The metadata of a way or relation, src/stringpbf/mod.rs:258-272, 341-354: a
    missing info reads as the default one. *)
Definition obj_meta (deleted : option bool -> outcome bool) (user : Z -> outcome str)
    (o : option info) (id : Z) : outcome meta :=
  let inf := unwrap_or o info0 in
  do ts <- unwrap (i_timestamp inf);
  do del <- deleted (i_visible inf);
  do cs <- unwrap (i_changeset inf);
  do uid <- unwrap (i_uid inf);
  do sid <- unwrap (i_user_sid inf);
  do name <- user sid;
  do v <- unwrap (i_version inf);
  Ret (Meta id (Some (as_u32 v)) del (Some (as_u32 cs)) (Some (EpochNumber ts))
            (Some (as_u32 uid)) (Some name)).
(** [!visible.unwrap_or(false)], src/stringpbf/mod.rs:264, 346 *)
Definition s_deleted (v : option bool) : outcome bool := Ret (negb (unwrap_or v false)).
(** [!visible.unwrap()], src/arcpbf/mod.rs:279, 369 *)
Definition a_deleted (v : option bool) : outcome bool := do b <- unwrap v; Ret (negb b).

(** One way, src/stringpbf/mod.rs:223-273; [dn] is absent from ways, and neither the
    granularities nor the offsets are used. *)
Definition s_decode_way (chk : profile) (st : list str) (w : pway) : outcome sobj :=
  do id <- unwrap (pw_id w);
  do tags <- s_tags_of st (pw_keys w) (pw_vals w);
  do nodes <- sum_refs chk (pw_refs w);
  do m <- obj_meta s_deleted (at_z st) (pw_info w) id;
  Ret (SWay (SW m tags nodes)).
(** src/arcpbf/mod.rs:235-292; [way.id()] defaults to 0. *)
Definition a_decode_way (chk : build) (st : list (option str)) (w : pway) : outcome aobj :=
  do tags <- a_tags_of chk st (pw_keys w) (pw_vals w);
  do nodes <- sum_refs chk (pw_refs w);
  do m <- obj_meta a_deleted (fun i => do o <- at_z st i; unwrap o) (pw_info w) (unwrap_or (pw_id w) 0);
  Ret (AWay (AW m tags nodes)).
(** One relation, src/stringpbf/mod.rs:286-356 *)
Definition s_decode_rel (chk : build) (st : list str) (r : prel) : outcome sobj :=
  do tags <- s_tags_of st (pr_keys r) (pr_vals r);
  do ids <- sum_refs chk (pr_memids r);
  do mem <- zip_members (at_z st) (pr_types r) ids (pr_roles r);
  do _ <- rest_type (s_member_rest chk) (pr_types r) ids (pr_roles r);
  do m <- obj_meta s_deleted (at_z st) (pr_info r) (unwrap_or (pr_id r) 0);
  Ret (SRel (SR m tags mem)).
(** src/arcpbf/mod.rs:308-380 *)
Definition a_decode_rel (chk : build) (st : list (option str)) (r : prel) : outcome aobj :=
  do tags <- a_tags_of chk st (pr_keys r) (pr_vals r);
  do ids <- sum_refs chk (pr_memids r);
  do mem <- zip_members (at_z st) (pr_types r) ids (pr_roles r);
  do _ <- rest_type (a_member_rest chk) (pr_types r) ids (pr_roles r);
  do m <- obj_meta a_deleted (fun i => do o <- at_z st i; unwrap o) (pr_info r) (unwrap_or (pr_id r) 0);
  Ret (ARel (AR m tags (filter_map keep_member mem))).

(** ** Groups and blocks *)

(** ObjectFilter, src/stringpbf/mod.rs:29 *)
Record obj_filter := OF { f_nodes : bool; f_ways : bool; f_rels : bool }.

(** The string table, String: every entry must be UTF-8, src/stringpbf/mod.rs:378-383
    and copies. *)
Definition s_strings (raw : string_table) : outcome (list str) :=
  omapM (fun b => unwrap (utf8_decode b)) raw.
(** Arc: entries that are not UTF-8 become None, src/arcpbf/mod.rs:436-441. *)
Definition a_strings (raw : string_table) : list (option str) := map utf8_decode raw.

Definition nonempty {A} (l : list A) : bool := match l with [] => false | _ => true end.

(** decode_primitive_group_to_objs, src/stringpbf/mod.rs:363-442.  decode_nodes is
    [unimplemented!]. *)
Definition s_decode_group (chk : build) (gran lato lono dg : Z) (raw : string_table)
    (flt : obj_filter) (g : pgroup) : outcome (list sobj) :=
  let dg := Z.quot dg 1000 in
  if nonempty (pg_nodes g) && f_nodes flt then Panic
  else if is_some (pg_dense g) && f_nodes flt then
    do st <- s_strings raw; s_decode_dense chk gran lato lono dg st (unwrap_or (pg_dense g) dn0)
  else if nonempty (pg_ways g) && f_ways flt then
    do st <- s_strings raw; omapM (s_decode_way chk st) (pg_ways g)
  else if nonempty (pg_rels g) && f_rels flt then
    do st <- s_strings raw; omapM (s_decode_rel chk st) (pg_rels g)
  else Ret [].

(** decode_primitive_group_to_objs, src/arcpbf/mod.rs:383-433 *)
Definition a_decode_group (chk : build) (gran lato lono dg : Z) (st : list (option str))
    (g : pgroup) : outcome (list aobj) :=
  let dg := Z.quot dg 1000 in
  if nonempty (pg_nodes g) then Panic
  else if is_some (pg_dense g) then
    a_decode_dense chk gran lato lono dg st (unwrap_or (pg_dense g) dn0)
  else if nonempty (pg_ways g) then omapM (a_decode_way chk st) (pg_ways g)
  else if nonempty (pg_rels g) then omapM (a_decode_rel chk st) (pg_rels g)
  else Panic.

(** One group in the position reader, src/stringpbf/node_id_pos.rs:74-126 *)
Definition p_decode_group (chk : profile) (gran lato lono : Z) (g : pgroup)
    : outcome (list (Z * latlon)) :=
  if nonempty (pg_nodes g) then Panic
  else if nonempty (pg_ways g) || nonempty (pg_rels g) then Ret []
  else match pg_dense g with
       | Some d => p_decode_dense chk gran lato lono d
       | None => Panic
       end.

(** decode_block_to_objs, src/stringpbf/mod.rs:444-471 *)
Definition s_decode_block (chk : build) (flt : obj_filter) (b : pblock) : outcome (list sobj) :=
  do raw <- unwrap (pb_strings b);
  match pb_groups b with
  | [g] => s_decode_group chk (granularity b) (lat_offset b) (lon_offset b) (date_granularity b) raw flt g
  | _ => Panic
  end.

(** decode_block_to_objs, src/arcpbf/mod.rs:435-465 *)
Definition a_decode_block (chk : build) (b : pblock) : outcome (list aobj) :=
  let st := a_strings (unwrap_or (pb_strings b) []) in
  do ls <- omapM (a_decode_group chk (granularity b) (lat_offset b) (lon_offset b)
                    (date_granularity b) st) (pb_groups b);
  Ret (concat ls).

(** decode_block_to_objs, src/stringpbf/node_id_pos.rs:68-131 *)
Definition p_decode_block (chk : profile) (b : pblock) : outcome (list (Z * latlon)) :=
  do ls <- omapM (p_decode_group chk (granularity b) (lat_offset b) (lon_offset b)) (pb_groups b);
  Ret (concat ls).

(** ** Readers *)

(** PBFReader (String), src/stringpbf/mod.rs:482-487; _sorted_assumption is not used
    by the reader. *)
Record s_reader := SReader { sr_src : bytes; sr_buf : list sobj; sr_filter : obj_filter }.
(** new, src/stringpbf/mod.rs:522-529 *)
Definition s_new (src : bytes) : s_reader := SReader src [] (OF true true true).

(** What the readers do with one blob: the objects it adds to the buffer.
    src/stringpbf/mod.rs:553-564 (an empty blob adds nothing). *)
Definition s_blob (rt : pbrt) (chk : build) (inflate : bytes -> option bytes) (flt : obj_filter)
    (b : blob) : outcome (list sobj) :=
  do data <- s_blob_data inflate b;
  match data with
  | [] => Ret []
  | _ => do blk <- unwrap (parse_block rt data); s_decode_block chk flt blk
  end.
(** src/stringpbf/node_id_pos.rs:58-63 *)
Definition p_blob (rt : pbrt) (chk : profile) (inflate : bytes -> option bytes) (b : blob)
    : outcome (list (Z * latlon)) :=
  do data <- s_blob_data inflate b;
  do blk <- unwrap (parse_block rt data); p_decode_block chk blk.
(** src/arcpbf/mod.rs:523-528 *)
Definition a_blob (rt : pbrt) (chk : build) (inflate : bytes -> option bytes) (b : blob)
    : outcome (list aobj) :=
  do data <- a_blob_data inflate b;
  do blk <- unwrap (parse_block rt data); a_decode_block chk blk.

(** [while self.buffer.is_empty() { .. }]: read blobs until one adds objects.
    None: end of file.  Each turn consumes at least four bytes. *)
Fixpoint refill {A} (rt : pbrt) (decode : blob -> outcome (list A)) (fuel : nat) (src : bytes)
    : outcome (option (list A) * bytes) :=
  match fuel with
  | O => Panic
  | S fuel' =>
      do (ob, r) <- next_blob rt src;
      match ob with
      | None => Ret (None, r)
      | Some b =>
          do l <- decode b;
          match l with
          | [] => refill rt decode fuel' r
          | _ => Ret (Some l, r)
          end
      end
  end.

(** The buffered part of the three [next] functions: a FIFO buffer. *)
Definition next_buffered {A} (rt : pbrt) (decode : blob -> outcome (list A)) (src : bytes)
    (buf : list A) : outcome (option A * (bytes * list A)) :=
  match buf with
  | a :: r => Ret (Some a, (src, r))
  | [] =>
      do (ol, src') <- refill rt decode (S (length src)) src;
      match ol with
      | None => Ret (None, (src', []))
      | Some [] => Ret (None, (src', []))
      | Some (a :: r) => Ret (Some a, (src', r))
      end
  end.

(** PBFReader::next, src/stringpbf/mod.rs:545-568 *)
Definition s_next (rt : pbrt) (chk : build) (inflate : bytes -> option bytes) (s : s_reader)
    : outcome (option sobj * s_reader) :=
  do (o, s') <- next_buffered rt (s_blob rt chk inflate (sr_filter s)) (sr_src s) (sr_buf s);
  Ret (o, SReader (fst s') (snd s') (sr_filter s)).

(** nodes(), ways(), relations(): set the filter, then filter the objects,
    src/stringpbf/mod.rs:489-507. *)
Definition s_set_filter (flt : obj_filter) (s : s_reader) : s_reader := SReader (sr_src s) (sr_buf s) flt.
Definition only_nodes := OF true false false.
Definition only_ways := OF false true false.
Definition only_rels := OF false false true.

(** PBFNodePositionReader, src/stringpbf/node_id_pos.rs:23-66 *)
Definition p_next (rt : pbrt) (chk : profile) (inflate : bytes -> option bytes) (s : bytes * list (Z * latlon))
    : outcome (option (Z * latlon) * (bytes * list (Z * latlon))) :=
  next_buffered rt (p_blob rt chk inflate) (fst s) (snd s).

(** PBFReader (Arc), src/arcpbf/mod.rs:475-541: the objects of a block are reversed and
    then taken from the end of the vector. *)
Definition pop {A} (v : list A) : option A * list A :=
  match rev v with [] => (None, []) | a :: r => (Some a, rev r) end.
Definition a_next (rt : pbrt) (chk : build) (inflate : bytes -> option bytes) (s : bytes * list aobj)
    : outcome (option aobj * (bytes * list aobj)) :=
  let '(src, buf) := s in
  do (buf', src') <- (match buf with
                      | _ :: _ => Ret (buf, src)
                      | [] =>
                          do (ol, src') <- refill rt (fun b => do l <- a_blob rt chk inflate b; Ret (rev l))
                                                  (S (length src)) src;
                          Ret (unwrap_or ol [], src')
                      end);
  let '(o, rest) := pop buf' in Ret (o, (src', rest)).
