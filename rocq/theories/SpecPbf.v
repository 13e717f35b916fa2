(** The OSM PBF format, specification side: what a file, a blob and a block
    mean, in the words of the format description (running sums, string table,
    granularities), independently of the readers. *)
From Coq Require Import String ZArith List Bool Lia.
From Verif Require Import Base Utf8 Timestamp Obj PbMsg.
Import ListNotations.
Open Scope Z_scope.

(** ** Files *)

(** A number in four bytes, most significant first. *)
Definition be32 (n : Z) : bytes :=
  [n / 2^24; (n / 2^16) mod 256; (n / 2^8) mod 256; n mod 256].

(** A blob as stored in a file: the type named in its header, the optional index
    data, and the blob's own bytes. *)
Record frame := Frame { fr_type : str; fr_index : option bytes; fr_data : bytes }.
Definition frame_header (f : frame) : bytes :=
  ser_header (BlobHeader (Some (fr_type f)) (fr_index f) (Some (Z.of_nat (length (fr_data f))))).
Definition frame_bytes (f : frame) : bytes :=
  be32 (Z.of_nat (length (frame_header f))) ++ frame_header f ++ fr_data f.
Definition file_bytes (fs : list frame) : bytes := flat_map frame_bytes fs.

(** A frame a writer can produce: sizes fit their fields. *)
Definition frame_ok (f : frame) : Prop :=
  valid_str (fr_type f) /\ Z.of_nat (length (fr_data f)) < 2^31 /\
  Z.of_nat (length (frame_header f)) < 2^32.

Definition is_data (f : frame) : bool := str_eqb (fr_type f) (lit "OSMData").

(** ** Sums and lookups *)

Definition total (l : list Z) : Z := fold_right Z.add 0 l.
(** The sum of the first i+1 deltas. *)
Definition sum_to (i : nat) (l : list Z) : Z := total (firstn (S i) l).

(** [s] is the string at index [i] of the table. *)
Definition string_at (raw : string_table) (i : Z) (s : str) : Prop :=
  0 <= i /\ valid_str s /\ nth_error raw (Z.to_nat i) = Some (utf8 s).

(** The tags given by a list of index pairs. *)
Definition tags_at (raw : string_table) (ps : list (Z * Z)) (ts : list (str * str)) : Prop :=
  Forall2 (fun p t => string_at raw (fst p) (fst t) /\ string_at raw (snd p) (snd t)) ps ts.

(** The key/value column of dense nodes: for each node its pairs, then 0.  Keys are
    never 0. *)
Definition run (ps : list (Z * Z)) : list Z := flat_map (fun p => [fst p; snd p]) ps ++ [0].
Definition column (runs : list (list (Z * Z))) : list Z := flat_map run runs.
Definition good_run (ps : list (Z * Z)) : Prop := Forall (fun p => fst p <> 0) ps.

(** ** Block parameters and what they mean *)

Definition gran_of (b : pblock) : Z := match pb_granularity b with Some g => g | None => 100 end.
Definition lat_off_of (b : pblock) : Z := match pb_lat_offset b with Some g => g | None => 0 end.
Definition lon_off_of (b : pblock) : Z := match pb_lon_offset b with Some g => g | None => 0 end.
Definition date_gran_of (b : pblock) : Z := match pb_date_granularity b with Some g => g | None => 1000 end.

(** [x], in units of 100 nanodegrees, is the coordinate that the raw value stands
    for: offset + granularity * raw nanodegrees. *)
Definition coord_is (gran off raw x : Z) : Prop := 100 * x = off + gran * raw.
(** [s] seconds is the time that the raw value stands for: granularity * raw
    milliseconds. *)
Definition time_is (gran raw : Z) (t : option timestamp) : Prop :=
  exists s, t = Some (EpochNumber s) /\ 1000 * s = gran * raw.

(** ** Objects *)

(** The i-th node of a dense group. *)
Record dense_node_is (b : pblock) (raw : string_table) (d : dense_nodes) (di : dense_info)
    (runs : list (list (Z * Z))) (i : nat) (n : snode) : Prop := DenseNodeIs {
  dni_id : m_id (sn_meta n) = sum_to i (dn_id d);
  dni_pos : exists la lo, sn_latlon n = Some (la, lo) /\
      coord_is (gran_of b) (lat_off_of b) (sum_to i (dn_lat d)) la /\
      coord_is (gran_of b) (lon_off_of b) (sum_to i (dn_lon d)) lo;
  dni_tags : exists ps, nth_error runs i = Some ps /\ tags_at raw ps (sn_tags n);
  dni_version : exists v, nth_error (di_version di) i = Some v /\ m_version (sn_meta n) = Some v;
  dni_time : time_is (date_gran_of b) (sum_to i (di_timestamp di)) (m_timestamp (sn_meta n));
  dni_changeset : m_changeset (sn_meta n) = Some (sum_to i (di_changeset di));
  dni_uid : m_uid (sn_meta n) = Some (sum_to i (di_uid di));
  dni_user : exists u, m_user (sn_meta n) = Some u /\ string_at raw (sum_to i (di_user_sid di)) u;
  dni_visible : m_deleted (sn_meta n) =
      match nth_error (di_visible di) i with Some v => negb v | None => false end
}.

(** All columns have one entry per node ([visible] may be empty). *)
Definition dense_is (b : pblock) (raw : string_table) (d : dense_nodes) (ns : list snode) : Prop :=
  exists di runs, dn_info d = Some di /\ dn_keys_vals d = column runs /\ Forall good_run runs /\
    length (dn_id d) = length ns /\ length (dn_lat d) = length ns /\ length (dn_lon d) = length ns /\
    length runs = length ns /\ length (di_version di) = length ns /\
    length (di_timestamp di) = length ns /\ length (di_changeset di) = length ns /\
    length (di_uid di) = length ns /\ length (di_user_sid di) = length ns /\
    (di_visible di = [] \/ length (di_visible di) = length ns) /\
    forall i n, nth_error ns i = Some n -> dense_node_is b raw d di runs i n.

(** The metadata of a way or relation; an absent flag means visible. *)
Definition info_is (b : pblock) (raw : string_table) (o : option info) (m : meta) : Prop :=
  exists inf ts u sid, o = Some inf /\ i_version inf = m_version m /\ m_version m <> None /\
    i_timestamp inf = Some ts /\ time_is (date_gran_of b) ts (m_timestamp m) /\
    i_changeset inf = m_changeset m /\ m_changeset m <> None /\
    i_uid inf = m_uid m /\ m_uid m <> None /\
    i_user_sid inf = Some sid /\ m_user m = Some u /\ string_at raw sid u /\
    m_deleted m = match i_visible inf with Some v => negb v | None => false end.

(** A list given by its deltas. *)
Definition sums (deltas l : list Z) : Prop :=
  length l = length deltas /\ forall i x, nth_error l i = Some x -> x = sum_to i deltas.

Definition way_is (b : pblock) (raw : string_table) (p : pway) (w : sway) : Prop :=
  pw_id p = Some (m_id (sw_meta w)) /\ info_is b raw (pw_info p) (sw_meta w) /\
  length (pw_keys p) = length (pw_vals p) /\
  tags_at raw (combine (pw_keys p) (pw_vals p)) (sw_tags w) /\
  sums (pw_refs p) (sw_nodes w).

Definition type_code (t : objtype) : Z := match t with TNode => 0 | TWay => 1 | TRelation => 2 end.
Definition mem_type (m : member) : objtype := fst (fst m).
Definition mem_id (m : member) : Z := snd (fst m).
Definition mem_role (m : member) : str := snd m.

Definition rel_is (b : pblock) (raw : string_table) (p : prel) (r : srel) : Prop :=
  pr_id p = Some (m_id (sr_meta r)) /\ info_is b raw (pr_info p) (sr_meta r) /\
  length (pr_keys p) = length (pr_vals p) /\
  tags_at raw (combine (pr_keys p) (pr_vals p)) (sr_tags r) /\
  pr_types p = map (fun m => type_code (mem_type m)) (sr_members r) /\
  sums (pr_memids p) (map mem_id (sr_members r)) /\
  Forall2 (string_at raw) (pr_roles p) (map mem_role (sr_members r)).

(** ** Groups and blocks *)

(** A group holds objects of one kind. *)
Inductive group_is (b : pblock) (raw : string_table) : pgroup -> list sobj -> Prop :=
| GDense d ns : dense_is b raw d ns ->
    group_is b raw (PGroup [] (Some d) [] [] []) (map SNode ns)
| GWays ps ws : ps <> [] -> Forall2 (way_is b raw) ps ws ->
    group_is b raw (PGroup [] None ps [] []) (map SWay ws)
| GRels ps rs : ps <> [] -> Forall2 (rel_is b raw) ps rs ->
    group_is b raw (PGroup [] None [] ps []) (map SRel rs).

(** The strings of the table are text. *)
Definition text_table (raw : string_table) : Prop :=
  Forall (fun b => exists s, valid_str s /\ b = utf8 s) raw.

(** A block means the objects of its groups, in order. *)
Definition block_is (b : pblock) (objs : list sobj) : Prop :=
  exists raw ls, pb_strings b = Some raw /\ text_table raw /\
    Forall2 (group_is b raw) (pb_groups b) ls /\ objs = concat ls.

(** ** The part of the format that the readers support exactly

    The granularity and the offsets are whole multiples of 100 nanodegrees, dates
    are in seconds, values fit the fields of the objects, and ways and relations
    carry a visible flag. *)
Record params_supported (b : pblock) : Prop := {
  ps_gran : exists k, gran_of b = 100 * k;
  ps_lat : exists k, lat_off_of b = 100 * k /\ in_i32 k;
  ps_lon : exists k, lon_off_of b = 100 * k /\ in_i32 k;
  ps_date : date_gran_of b = 1000
}.

Definition opt_is {A} (P : A -> Prop) (o : option A) : Prop := exists a, o = Some a /\ P a.

Record meta_supported (m : meta) : Prop := {
  msu_id : in_i64 (m_id m);
  msu_version : opt_is (fun v => 0 <= v < 2^31) (m_version m);
  msu_time : opt_is (fun t => exists s, t = EpochNumber s /\ in_i64 s) (m_timestamp m);
  msu_changeset : opt_is in_u32 (m_changeset m);
  msu_uid : opt_is (fun v => 0 <= v < 2^31) (m_uid m)
}.

(** Dense nodes additionally: times from 1970 to 2038; the uid 2^31-1 is refused;
    raw and scaled coordinates fit 32 bits. *)
Record node_supported (b : pblock) (d : dense_nodes) (di : dense_info) (i : nat) (n : snode) : Prop := {
  nsu_meta : meta_supported (sn_meta n);
  nsu_time : opt_is (fun t => exists s, t = EpochNumber s /\ 0 <= s < 2^31) (m_timestamp (sn_meta n));
  nsu_uid : opt_is (fun v => v < 2^31 - 1) (m_uid (sn_meta n));
  nsu_sid : sum_to i (di_user_sid di) < 2^31;
  nsu_pos : opt_is (fun p => in_i32 (fst p) /\ in_i32 (snd p)) (sn_latlon n);
  nsu_raw : in_i32 (sum_to i (dn_lat d)) /\ in_i32 (sum_to i (dn_lon d));
  nsu_scaled : - 2^31 * 100 <= gran_of b * sum_to i (dn_lat d) < 2^31 * 100 /\
               - 2^31 * 100 <= gran_of b * sum_to i (dn_lon d) < 2^31 * 100
}.

Definition has_flag (o : option info) : Prop := opt_is (fun i => i_visible i <> None) o.

Definition group_supported (b : pblock) (g : pgroup) (objs : list sobj) : Prop :=
  match pg_dense g with
  | Some d => forall di i n, dn_info d = Some di -> nth_error objs i = Some (SNode n) -> node_supported b d di i n
  | None =>
      Forall (fun p => has_flag (pw_info p)) (pg_ways g) /\ Forall (fun p => has_flag (pr_info p)) (pg_rels g) /\
      Forall (fun o => meta_supported (s_meta o) /\
                match o with
                | SNode _ => True
                | SWay w => Forall in_i64 (sw_nodes w)
                | SRel r => Forall in_i64 (map mem_id (sr_members r))
                end) objs
  end.

(** One group per block, as the String reader requires. *)
Definition block_supported (b : pblock) (objs : list sobj) : Prop :=
  params_supported b /\ exists g, pb_groups b = [g] /\ group_supported b g objs.
