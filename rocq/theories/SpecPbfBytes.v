(** The OSM PBF file format, byte for byte: specification side.  The messages and their
    encodings are those of SpecWire.v, which blocks a reader accepts is said in
    SpecPbfAccept.v. *)
From Coq Require Import String ZArith List Bool Lia.
From Verif Require Import Base Obj PbMsg SpecIter SpecPbf SpecPbfRead SpecPbfAccept SpecWire.
Import ListNotations.
Open Scope Z_scope.

(** Four bytes, the most significant first. *)
Definition length_bytes (n : Z) : bytes := [n / 2^24; n / 2^16 mod 2^8; n / 2^8 mod 2^8; n mod 2^8].

(** A frame: the length of the header, the header, and as many bytes as it says. *)
Definition frame_of (h : blob_header) (body bs : bytes) : Prop :=
  exists hf hb, bs = length_bytes (Z.of_nat (length hb)) ++ hb ++ body /\ Z.of_nat (length hb) < 2^32 /\
    message_bytes hf hb /\ header_enc h hf /\ header_complete h /\ bh_datasize h = Some (Z.of_nat (length body)).

Definition is_osm_data (h : blob_header) : Prop := bh_type h = Some (lit "OSMData").

(** The body of a frame as a blob. *)
Definition blob_bytes (bl : blob) (body : bytes) : Prop := exists bf, message_bytes bf body /\ blob_enc bl bf.

(** A sequence of frames; those whose type is not OSMData are passed over. *)
Inductive framed : list blob -> bytes -> Prop :=
| framed_nil : framed [] []
| framed_data h bl body bs bls rest : frame_of h body bs -> is_osm_data h -> blob_bytes bl body -> framed bls rest ->
    framed (bl :: bls) (bs ++ rest)
| framed_other h body bs bls rest : frame_of h body bs -> ~ is_osm_data h -> framed bls rest -> framed bls (bs ++ rest).

(** No frame that could be read begins here. *)
Definition no_frame (src : bytes) : Prop :=
  forall h body bs rest, src = bs ++ rest -> frame_of h body bs -> is_osm_data h /\ forall bl, ~ blob_bytes bl body.

(** A primitive block in some data. *)
Definition block_bytes (b : pblock) (data : bytes) : Prop :=
  exists fs, message_bytes fs data /\ block_enc b fs /\ block_complete b.

(** The data of a blob.  The String and position readers accept raw data only if it is
    empty, and take a blob with no data for an empty one. *)
Definition s_data (inflate : bytes -> option bytes) (bl : blob) (data : bytes) : Prop :=
  (bl_raw bl = Some [] /\ data = []) \/
  (bl_raw bl = None /\ exists z, bl_zlib bl = Some z /\ inflate z = Some data) \/
  (bl_raw bl = None /\ bl_zlib bl = None /\ data = []).
(** The Arc reader takes raw data as it is, and needs the announced size of compressed
    data. *)
Definition a_data (inflate : bytes -> option bytes) (bl : blob) (data : bytes) : Prop :=
  bl_raw bl = Some data \/
  (bl_raw bl = None /\ exists z n, bl_zlib bl = Some z /\ bl_raw_size bl = Some n /\ 0 <= n /\ inflate z = Some data).

(** ** Objects *)

(** The String and Arc readers need the visible flag: the String reader takes an object
    without it for deleted, the Arc reader does not accept it. *)
Definition flag_read (o : option info) (obj : sobj) : Prop :=
  exists inf, o = Some inf /\ (i_visible inf = None -> m_deleted (s_meta obj) = true).

(** The objects the String reader makes of a block, asked for nodes, ways and relations
    as given by the three flags: those of the first kind asked for that is present. *)
Definition s_objs (chk nodes ways rels : bool) (b : pblock) (os : list sobj) : Prop :=
  exists raw g, pb_strings b = Some raw /\ pb_groups b = [g] /\
    (forall d, nodes = true -> pg_dense g = Some d -> dense_objs chk b raw d os) /\
    (nodes = false \/ pg_dense g = None -> ways = true -> pg_ways g <> [] ->
       Forall2 (fun p o => way_read chk raw p o /\ flag_read (pw_info p) o) (pg_ways g) os) /\
    (nodes = false \/ pg_dense g = None -> ways = false \/ pg_ways g = [] -> rels = true ->
       Forall2 (fun p o => rel_read chk raw p o /\ flag_read (pr_info p) o) (pg_rels g) os) /\
    (nodes = false \/ pg_dense g = None -> ways = false \/ pg_ways g = [] -> rels = false -> os = []).
(** The Arc reader; what it makes of strings that are not text is in C71. *)
Definition a_objs (chk : bool) (b : pblock) (os : list aobj) : Prop :=
  exists raw, pb_strings b = Some raw /\ (text_table raw -> per_group b (map a_view os) (group_read chk b raw)).
(** The position reader: an id and a position for each dense node. *)
Definition p_objs (chk : bool) (b : pblock) (os : list (Z * latlon)) : Prop :=
  exists ls, os = concat ls /\ Forall2 (fun g l =>
    (pg_ways g <> [] \/ pg_rels g <> [] -> l = []) /\
    (pg_ways g = [] -> pg_rels g = [] -> exists d, pg_dense g = Some d /\ length l = length (dn_id d) /\
       forall i id la lo, nth_error l i = Some (id, (la, lo)) -> as64 chk (sum_to i (dn_id d)) id /\
         pos_read (gran_of b) (lat_off_of b) (sum_to i (dn_lat d)) la /\
         pos_read (gran_of b) (lon_off_of b) (sum_to i (dn_lon d)) lo)) (pb_groups b) ls.

(** ** Blobs and files *)

(** A blob whose data is a block with the property [P]; the String reader passes over
    empty data. *)
Definition holds_block (data : blob -> bytes -> Prop) (P : pblock -> Prop) (bl : blob) : Prop :=
  exists d b, data bl d /\ block_bytes b d /\ P b.
Definition empty_or_block (data : blob -> bytes -> Prop) (P : pblock -> Prop) (bl : blob) : Prop :=
  data bl [] \/ holds_block data P bl.
Definition gives_none_or {A} (data : blob -> bytes -> Prop) (objs : pblock -> list A -> Prop) (bl : blob) (l : list A) : Prop :=
  (data bl [] /\ l = []) \/ holds_block data (fun b => objs b l) bl.

(** Reading the data blobs [bls], of which [accepted] ones can be read and give the
    objects [gives]: if all are accepted then all their objects are returned, in order,
    and then the end is reported if the file is [whole], else the reader panics; if one
    is not accepted then the objects of those before it are returned and the reader
    panics. *)
Definition reads_exactly {St A} (next : St -> outcome (option A * St)) (start : St)
    (accepted : blob -> Prop) (gives : blob -> list A -> Prop) (whole : Prop) (bls : list blob) : Prop :=
  (Forall accepted bls \/ exists bls1 bl bls2, bls = bls1 ++ bl :: bls2 /\ Forall accepted bls1 /\ ~ accepted bl) /\
  (Forall accepted bls -> exists ls, Forall2 gives bls ls /\
     (whole -> exists e, Runs next start (concat ls) (Ret e)) /\ (~ whole -> Runs next start (concat ls) Panic)) /\
  (forall bls1 bl bls2, bls = bls1 ++ bl :: bls2 -> Forall accepted bls1 -> ~ accepted bl ->
     exists ls, Forall2 gives bls1 ls /\ Runs next start (concat ls) Panic).
