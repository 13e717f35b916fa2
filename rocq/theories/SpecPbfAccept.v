(** Which messages the PBF readers accept: specification side.  What the readers
    make of a message they accept is in SpecPbfRead. *)
From Coq Require Import String ZArith List Bool Lia.
From Verif Require Import Base Utf8 Obj PbMsg SpecPbf SpecPbfRead.
Import ListNotations.
Open Scope Z_scope.

(** A sum or product that must fit its width in a build that checks for overflow. *)
Definition fits64 (chk : bool) (x : Z) : Prop := chk = true -> in_i64 x.
Definition fits32 (chk : bool) (x : Z) : Prop := chk = true -> in_i32 x.

(** An index of the string table, and one whose string is text. *)
Definition entry (raw : string_table) (i : Z) : Prop := 0 <= i < Z.of_nat (length raw).
Definition text_at (raw : string_table) (i : Z) : Prop := exists s, string_at raw i s.

(** ** Dense nodes *)

(** The raw coordinate fits 32 bits in any build; the scaled one and the offset one
    in a build that checks. *)
Definition pos_accepted (chk : bool) (gran off raw : Z) : Prop :=
  in_i32 raw /\ fits32 chk (Z.quot gran 100 * raw) /\
  exists o, as32 false (Z.quot off 100) o /\ fits32 chk (Z.quot gran 100 * raw + o).

(** Ids and positions: all that the position reader looks at. *)
Definition place_accepted (chk : bool) (b : pblock) (d : dense_nodes) : Prop :=
  (length (dn_id d) <= length (dn_lat d))%nat /\ (length (dn_id d) <= length (dn_lon d))%nat /\
  forall i, (i < length (dn_id d))%nat ->
    fits64 chk (sum_to i (dn_id d)) /\
    pos_accepted chk (gran_of b) (lat_off_of b) (sum_to i (dn_lat d)) /\
    pos_accepted chk (gran_of b) (lon_off_of b) (sum_to i (dn_lon d)).

(** Times, in a build that checks: no step of the compounding sum overflows; the
    entries themselves are cut to 32 bits first. *)
Definition times_accepted (chk : bool) (scale : Z) (n : nat) (ts : list Z) : Prop :=
  chk = true -> exists cut, Forall2 (as32 false) ts cut /\
    forall i t, (i < n)%nat -> nth_error cut i = Some t ->
      in_i32 (compounded scale (firstn i cut) + t) /\ in_i32 ((compounded scale (firstn i cut) + t) * scale).

(** Metadata columns: long enough, the user id is not the largest one, and the user
    index leads to a text. *)
Definition columns_accepted (chk : bool) (b : pblock) (raw : string_table) (n : nat) (di : dense_info) : Prop :=
  (n <= length (di_version di))%nat /\ (n <= length (di_timestamp di))%nat /\
  (n <= length (di_changeset di))%nat /\ (n <= length (di_uid di))%nat /\ (n <= length (di_user_sid di))%nat /\
  times_accepted chk (Z.quot (date_gran_of b) 1000) n (di_timestamp di) /\
  forall i, (i < n)%nat ->
    fits64 chk (sum_to i (di_changeset di)) /\
    (exists u, as32 chk (sum_to i (di_uid di)) u /\ u <> 2^31 - 1) /\
    (exists sid, as32 chk (sum_to i (di_user_sid di)) sid /\ text_at raw sid).

(** The key/value column begins with a run for every node; indexes are in the table. *)
Definition tags_accepted (raw : string_table) (n : nat) (kv : list Z) : Prop :=
  exists runs rest, kv = column runs ++ rest /\ length runs = n /\
    Forall (fun ps => good_run ps /\ Forall (fun p => entry raw (fst p) /\ entry raw (snd p)) ps) runs.

Definition dense_accepted (chk : bool) (b : pblock) (raw : string_table) (d : dense_nodes) : Prop :=
  place_accepted chk b d /\
  (dn_id d = [] \/ exists di, dn_info d = Some di /\ columns_accepted chk b raw (length (dn_id d)) di).

(** ** Ways and relations *)

Definition info_accepted (raw : string_table) (o : option info) : Prop :=
  exists inf sid, o = Some inf /\ i_version inf <> None /\ i_timestamp inf <> None /\ i_changeset inf <> None /\
    i_uid inf <> None /\ i_user_sid inf = Some sid /\ text_at raw sid.

Definition refs_accepted (chk : bool) (l : list Z) : Prop :=
  forall i, (i < length l)%nat -> fits64 chk (sum_to i l).

(** Tags.  The String reader wants as many keys as values.  The Arc reader takes as
    many as there are of both; it depends on the build whether it looks at one key
    more. *)
Definition s_pairs_accepted (raw : string_table) (keys vals : list Z) : Prop :=
  length keys = length vals /\ Forall (entry raw) keys /\ Forall (entry raw) vals.
Definition a_pairs_accepted (chk : build) (raw : string_table) (keys vals : list Z) : Prop :=
  Forall (entry raw) (firstn (length vals) keys) /\ Forall (entry raw) (firstn (length keys) vals) /\
  forall k, nth_error keys (length vals) = Some k -> a_tag_rest chk (length keys) (length vals) = true -> entry raw k.

(** Members.  As many as there are types, ids and roles; it depends on the build
    whether one type more is looked at. *)
Definition members_accepted (rest : nat -> nat -> nat -> bool) (raw : string_table) (types ids roles : list Z) : Prop :=
  let n := Nat.min (length types) (Nat.min (length ids) (length roles)) in
  Forall (fun t => 0 <= t <= 2) (firstn n types) /\ Forall (entry raw) (firstn n roles) /\
  forall t, nth_error types (Nat.min (length ids) (length roles)) = Some t ->
    rest (length types) (length ids) (length roles) = true -> 0 <= t <= 2.

Definition way_accepted (chk : build) (raw : string_table) (p : pway) : Prop :=
  s_pairs_accepted raw (pw_keys p) (pw_vals p) /\
  refs_accepted chk (pw_refs p) /\ info_accepted raw (pw_info p).
Definition rel_accepted (chk : build) (raw : string_table) (p : prel) : Prop :=
  s_pairs_accepted raw (pr_keys p) (pr_vals p) /\ refs_accepted chk (pr_memids p) /\
  members_accepted (s_member_rest chk) raw (pr_types p) (pr_memids p) (pr_roles p) /\ info_accepted raw (pr_info p).

(** The Arc reader also needs the visible flag. *)
Definition a_way_accepted (chk : build) (raw : string_table) (p : pway) : Prop :=
  a_pairs_accepted chk raw (pw_keys p) (pw_vals p) /\
  refs_accepted chk (pw_refs p) /\ info_accepted raw (pw_info p) /\ has_flag (pw_info p).
Definition a_rel_accepted (chk : build) (raw : string_table) (p : prel) : Prop :=
  a_pairs_accepted chk raw (pr_keys p) (pr_vals p) /\ refs_accepted chk (pr_memids p) /\
  members_accepted (a_member_rest chk) raw (pr_types p) (pr_memids p) (pr_roles p) /\
  info_accepted raw (pr_info p) /\ has_flag (pr_info p).

(** ** Groups *)

(** A group is accepted by the String reader asked for nodes, ways and relations as
    given by the three flags.  Plain nodes are not supported; kinds that are not asked
    for are not looked at; of the kinds asked for, the first that is present is read. *)
Definition s_group_accepted (chk : build) (nodes ways rels : bool) (b : pblock) (raw : string_table) (g : pgroup) : Prop :=
  (nodes = true -> pg_nodes g = []) /\
  (forall d, nodes = true -> pg_dense g = Some d ->
     text_table raw /\ dense_accepted chk b raw d /\ tags_accepted raw (length (dn_id d)) (dn_keys_vals d)) /\
  (nodes = false \/ pg_dense g = None -> ways = true -> pg_ways g <> [] ->
     text_table raw /\ Forall (way_accepted chk raw) (pg_ways g)) /\
  (nodes = false \/ pg_dense g = None -> ways = false \/ pg_ways g = [] -> rels = true -> pg_rels g <> [] ->
     text_table raw /\ Forall (rel_accepted chk raw) (pg_rels g)).

(** By the Arc reader: not every string need be text, the key/value column may be left
    out, ways and relations need the visible flag, and a group must not be empty. *)
Definition a_group_accepted (chk : build) (b : pblock) (raw : string_table) (g : pgroup) : Prop :=
  pg_nodes g = [] /\ (pg_dense g = None -> pg_ways g = [] -> pg_rels g <> []) /\
  (forall d, pg_dense g = Some d ->
     dense_accepted chk b raw d /\ (dn_keys_vals d = [] \/ tags_accepted raw (length (dn_id d)) (dn_keys_vals d))) /\
  (pg_dense g = None -> pg_ways g <> [] ->
     Forall (a_way_accepted chk raw) (pg_ways g)) /\
  (pg_dense g = None -> pg_ways g = [] ->
     Forall (a_rel_accepted chk raw) (pg_rels g)).

(** By the position reader: groups with ways or relations are passed over. *)
Definition p_group_accepted (chk : bool) (b : pblock) (g : pgroup) : Prop :=
  pg_nodes g = [] /\
  (pg_ways g = [] -> pg_rels g = [] -> exists d, pg_dense g = Some d /\ place_accepted chk b d).

(** ** Blocks *)

(** The String reader takes blocks of exactly one group. *)
Definition s_accepted (chk : build) (nodes ways rels : bool) (b : pblock) : Prop :=
  exists raw g, pb_strings b = Some raw /\ pb_groups b = [g] /\ s_group_accepted chk nodes ways rels b raw g.
Definition a_accepted (chk : build) (b : pblock) : Prop :=
  exists raw, pb_strings b = Some raw /\ Forall (a_group_accepted chk b raw) (pb_groups b).
Definition p_accepted (chk : bool) (b : pblock) : Prop := Forall (p_group_accepted chk b) (pb_groups b).
