(** What decoding a message must mean for every message a reader accepts, also
    one outside the limits of SpecPbf: specification side.  Numbers may wrap
    around at the width of the target field (never in a build that checks for
    overflow, for the columns where that is stated). *)
From Coq Require Import String ZArith List Bool Lia.
From Verif Require Import Base Utf8 Timestamp Obj PbMsg SpecPbf.
Import ListNotations.
Open Scope Z_scope.

(** [y] is [x] reduced to 64 (32) bits, signed; [x] itself in a build that checks
    for overflow. *)
Definition as64 (chk : bool) (x y : Z) : Prop :=
  in_i64 y /\ (exists k, y = x + k * 2^64) /\ (chk = true -> y = x).
Definition as32 (chk : bool) (x y : Z) : Prop :=
  in_i32 y /\ (exists k, y = x + k * 2^32) /\ (chk = true -> y = x).
(** Unsigned, always reduced ([as u32]). *)
Definition asu32 (x y : Z) : Prop := in_u32 y /\ exists k, y = x + k * 2^32.

(** An Arc object seen as fields. *)
Definition a_view (o : aobj) : sobj :=
  match o with
  | ANode n => SNode (SN (an_meta n) (match an_tags n with Some t => t | None => [] end) (an_latlon n))
  | AWay w => SWay (SW (aw_meta w) (aw_tags w) (aw_nodes w))
  | ARel r => SRel (SR (ar_meta r) (ar_tags r) (ar_members r))
  end.

(** ** Dense nodes *)

(** A coordinate: granularity and offset are each cut to whole multiples of 100
    nanodegrees first, then combined, up to the width of the field. *)
Definition pos_read (gran off raw x : Z) : Prop :=
  in_i32 raw /\ as32 false (Z.quot off 100 + Z.quot gran 100 * raw) x.

(** The timestamps of dense nodes: each is the scaled sum of its own entry and the
    timestamp of the node before, so the scale applies again and again. *)
Definition compounded (scale : Z) (l : list Z) : Z := fold_left (fun last t => (last + t) * scale) l 0.

(** The i-th node. *)
Record dense_read (chk : bool) (b : pblock) (raw : string_table) (d : dense_nodes) (di : dense_info)
    (runs : list (list (Z * Z))) (i : nat) (n : snode) : Prop := {
  dr_id : as64 chk (sum_to i (dn_id d)) (m_id (sn_meta n));
  dr_pos : exists la lo, sn_latlon n = Some (la, lo) /\
      pos_read (gran_of b) (lat_off_of b) (sum_to i (dn_lat d)) la /\
      pos_read (gran_of b) (lon_off_of b) (sum_to i (dn_lon d)) lo;
  dr_tags : exists ps, nth_error runs i = Some ps /\ tags_at raw ps (sn_tags n);
  dr_version : exists v x, nth_error (di_version di) i = Some v /\ m_version (sn_meta n) = Some x /\ asu32 v x;
  dr_time : exists t, m_timestamp (sn_meta n) = Some (EpochNumber t) /\
      as32 false (compounded (Z.quot (date_gran_of b) 1000) (firstn (S i) (di_timestamp di))) t;
  dr_changeset : exists x, m_changeset (sn_meta n) = Some x /\ asu32 (sum_to i (di_changeset di)) x;
  dr_uid : exists x, m_uid (sn_meta n) = Some x /\ asu32 (sum_to i (di_uid di)) x;
  dr_user : exists u sid, m_user (sn_meta n) = Some u /\ as32 chk (sum_to i (di_user_sid di)) sid /\ string_at raw sid u;
  dr_visible : m_deleted (sn_meta n) =
      match nth_error (di_visible di) i with Some v => negb v | None => false end
}.

(** The key/value column gives the runs; left out altogether, no node has tags. *)
Definition runs_of (kv : list Z) (runs : list (list (Z * Z))) : Prop :=
  Forall good_run runs /\
  ((exists rest, kv = column runs ++ rest) \/ kv = [] /\ Forall (fun ps => ps = []) runs).

(** The objects decoded from a dense group: one per id. *)
Definition dense_objs (chk : bool) (b : pblock) (raw : string_table) (d : dense_nodes) (os : list sobj) : Prop :=
  length os = length (dn_id d) /\
  exists di runs, (di = match dn_info d with Some x => x | None => DenseInfo [] [] [] [] [] [] end) /\
    runs_of (dn_keys_vals d) runs /\ length runs = length os /\
    forall i o, nth_error os i = Some o -> exists n, o = SNode n /\ dense_read chk b raw d di runs i n.

(** ** Ways and relations *)

(** Metadata; every entry must be present.  The visible flag: see the theorems. *)
Definition meta_read (raw : string_table) (o : option info) (m : meta) : Prop :=
  exists inf v ts cs uid sid x y z u, o = Some inf /\
    i_version inf = Some v /\ m_version m = Some x /\ asu32 v x /\
    i_timestamp inf = Some ts /\ m_timestamp m = Some (EpochNumber ts) /\
    i_changeset inf = Some cs /\ m_changeset m = Some y /\ asu32 cs y /\
    i_uid inf = Some uid /\ m_uid m = Some z /\ asu32 uid z /\
    i_user_sid inf = Some sid /\ m_user m = Some u /\ string_at raw sid u /\
    forall f, i_visible inf = Some f -> m_deleted m = negb f.

(** Key i with value i. *)
Definition way_read (chk : bool) (raw : string_table) (p : pway) (o : sobj) : Prop :=
  exists w, o = SWay w /\ pw_id p = Some (m_id (sw_meta w)) /\ meta_read raw (pw_info p) (sw_meta w) /\
    tags_at raw (combine (pw_keys p) (pw_vals p)) (sw_tags w) /\
    length (sw_nodes w) = length (pw_refs p) /\
    forall i x, nth_error (sw_nodes w) i = Some x -> as64 chk (sum_to i (pw_refs p)) x.

(** Type i, id i and role i make member i. *)
Definition rel_read (chk : bool) (raw : string_table) (p : prel) (o : sobj) : Prop :=
  exists r, o = SRel r /\ pr_id p = Some (m_id (sr_meta r)) /\ meta_read raw (pr_info p) (sr_meta r) /\
    tags_at raw (combine (pr_keys p) (pr_vals p)) (sr_tags r) /\
    length (sr_members r) = Nat.min (length (pr_types p)) (Nat.min (length (pr_memids p)) (length (pr_roles p))) /\
    forall i m, nth_error (sr_members r) i = Some m ->
      nth_error (pr_types p) i = Some (type_code (mem_type m)) /\
      as64 chk (sum_to i (pr_memids p)) (mem_id m) /\
      exists x, nth_error (pr_roles p) i = Some x /\ string_at raw x (mem_role m).

(** ** Groups *)

(** A group holds one kind of object (of a group holding several kinds, which the
    format forbids, only the first kind is read). *)
Definition group_read (chk : bool) (b : pblock) (raw : string_table) (g : pgroup) (l : list sobj) : Prop :=
  (forall d, pg_dense g = Some d -> dense_objs chk b raw d l) /\
  (pg_dense g = None -> pg_ways g <> [] -> Forall2 (way_read chk raw) (pg_ways g) l) /\
  (pg_dense g = None -> pg_ways g = [] -> Forall2 (rel_read chk raw) (pg_rels g) l).

(** [os] is made up of one list for each group, in order, each related to its group by [P]. *)
Definition per_group (b : pblock) (os : list sobj) (P : pgroup -> list sobj -> Prop) : Prop :=
  exists ls, os = concat ls /\ Forall2 P (pb_groups b) ls.
