(** Property C101: exactly which PBF files can be read. *)
From Coq Require Import String ZArith List Bool Lia.
From Verif Require Import Base Utf8 Timestamp Obj PbWire PbMsg PbMsgFacts PbRange PbfRead SpecPbf SpecPbfRead SpecPbfAccept
  SpecIter PbfFacts PbfSound PbfFrame PbfAccept PropsPbfFile PropsPbfBlock.
Import ListNotations.
Open Scope Z_scope.

Lemma nonempty_iff {A} (l : list A) : nonempty l = true <-> l <> [].
Proof. destruct l; cbn; split; try easy; congruence. Qed.
Lemma empty_iff {A} (l : list A) : nonempty l = false <-> l = [].
Proof. destruct l; cbn; split; try easy; congruence. Qed.

(** A group, String reader. *)
Lemma s_group_succ (chk : build) n w r b raw g : ok_group g ->
  Forall (fun p => is_some (pw_id p) = true) (pg_ways g) ->
  succ (s_decode_group chk (gran_of b) (lat_off_of b) (lon_off_of b) (date_gran_of b) raw (OF n w r) g) <->
  s_group_accepted chk n w r b raw g.
Proof.
  intros (_ & Kd & Kw & Kr & _) Iw. unfold s_decode_group. cbv zeta. cbn [f_nodes f_ways f_rels]. unfold s_group_accepted.
  destruct (nonempty (pg_nodes g) && n) eqn:C1.
  { apply andb_true_iff in C1 as (C1 & ->). apply nonempty_iff in C1. split; [intros (x & H); discriminate|]. intros (H & _). elim C1. now apply H. }
  assert (N1 : n = true -> pg_nodes g = []).
  { intros ->. rewrite andb_true_r in C1. now apply empty_iff. }
  destruct (is_some (pg_dense g) && n) eqn:C2.
  { apply andb_true_iff in C2 as (C2 & ->). destruct (pg_dense g) as [d|] eqn:Ed; [|discriminate]. cbn [unwrap_or].
    destruct Kd as (_ & _ & Hla & Hlo & _). rewrite succ_bind. split.
    - intros (st & Es & H). apply (s_dense_succ _ _ _ _ _ _ _ Hla Hlo) in H as (H & T).
      assert (Tx : text_table raw) by (apply s_strings_succ; now exists st).
      split; [exact N1|]. split; [|split; [intros [X|X]; discriminate|intros [X|X]; discriminate]].
      intros d' _ Hd. injection Hd as <-. split; [exact Tx|]. split.
      + apply (dense_iff chk b raw (at_z st)); [intros i; now apply s_text|exact H].
      + apply (taken_iff raw (tag_ok (at_z st))); [|exact T]. intros p. unfold tag_ok. now rewrite !(s_entry raw st) by exact Es.
    - intros (_ & H & _). destruct (H d eq_refl eq_refl) as (Tx & D & T). apply s_strings_succ in Tx as (st & Es).
      exists st. split; [exact Es|]. apply (s_dense_succ _ _ _ _ _ _ _ Hla Hlo). split.
      + apply (dense_iff chk b raw (at_z st)); [intros i; now apply s_text|exact D].
      + apply (taken_iff raw (tag_ok (at_z st))); [|exact T]. intros p. unfold tag_ok. now rewrite !(s_entry raw st) by exact Es. }
  assert (N2 : n = false \/ pg_dense g = None).
  { apply andb_false_iff in C2 as [C2| ->]; [right; now destruct (pg_dense g)|now left]. }
  assert (N2' : forall (P : dense_nodes -> Prop), forall d, n = true -> pg_dense g = Some d -> P d).
  { intros P d E1 E2. destruct N2; congruence. }
  destruct (nonempty (pg_ways g) && w) eqn:C3.
  { apply andb_true_iff in C3 as (C3 & ->). apply nonempty_iff in C3. rewrite succ_bind.
    assert (A : forall st, s_strings raw = Ret st -> (succ (omapM (s_decode_way chk st) (pg_ways g)) <-> Forall (way_accepted chk raw) (pg_ways g))).
    { intros st Es. rewrite succ_omapM. eapply Forall_iff; [exact (Forall_both _ _ _ Kw Iw)|]. intros p (X & Y). now apply s_way_succ. }
    split.
    - intros (st & Es & H). apply (A st Es) in H. split; [exact N1|]. split; [apply N2'|]. split.
      + intros _ _ _. split; [apply s_strings_succ; now exists st|exact H].
      + intros _ [X|X]; [discriminate|contradiction].
    - intros (_ & _ & H & _). destruct (H N2 eq_refl C3) as (Tx & F). apply s_strings_succ in Tx as (st & Es). exists st. split; [exact Es|].
      now apply (A st Es). }
  assert (N3 : w = false \/ pg_ways g = []).
  { apply andb_false_iff in C3 as [C3| ->]; [right; now apply empty_iff|now left]. }
  assert (N3' : forall P : Prop, w = true -> pg_ways g <> [] -> P).
  { intros P E1 E2. destruct N3; congruence. }
  destruct (nonempty (pg_rels g) && r) eqn:C4.
  { apply andb_true_iff in C4 as (C4 & ->). apply nonempty_iff in C4. rewrite succ_bind.
    assert (A : forall st, s_strings raw = Ret st -> (succ (omapM (s_decode_rel chk st) (pg_rels g)) <-> Forall (rel_accepted chk raw) (pg_rels g))).
    { intros st Es. rewrite succ_omapM. eapply Forall_iff; [exact Kr|]. intros p X. now apply s_rel_succ. }
    split.
    - intros (st & Es & H). apply (A st Es) in H. split; [exact N1|]. split; [apply N2'|]. split.
      + intros _. apply N3'.
      + intros _ _ _ _. split; [apply s_strings_succ; now exists st|exact H].
    - intros (_ & _ & _ & H). destruct (H N2 N3 eq_refl C4) as (Tx & F). apply s_strings_succ in Tx as (st & Es). exists st. split; [exact Es|].
      now apply (A st Es). }
  split; [|intros _; now exists []]. intros _. split; [exact N1|]. split; [apply N2'|]. split; [intros _; apply N3'|].
  intros _ _ -> X. rewrite andb_true_r in C4. apply empty_iff in C4. contradiction.
Qed.

(** A group, Arc reader. *)
Lemma a_group_succ (chk : build) b raw g : ok_group g ->
  succ (a_decode_group chk (gran_of b) (lat_off_of b) (lon_off_of b) (date_gran_of b) (a_strings raw) g) <->
  a_group_accepted chk b raw g.
Proof.
  intros (_ & Kd & Kw & Kr & _). unfold a_decode_group. cbv zeta. unfold a_group_accepted.
  destruct (nonempty (pg_nodes g)) eqn:C1.
  { apply nonempty_iff in C1. split; [intros (x & H); discriminate|]. intros (H & _). contradiction. }
  apply empty_iff in C1.
  destruct (pg_dense g) as [d|] eqn:Ed.
  { cbn [is_some unwrap_or]. destruct Kd as (_ & _ & Hla & Hlo & _). rewrite (a_dense_succ _ _ _ _ _ _ _ Hla Hlo).
    rewrite (dense_iff chk b raw (a_user (a_strings raw)) d (a_text raw)).
    rewrite (taken_iff raw (tag_ok (at_z (a_strings raw)))) by (intros p; unfold tag_ok; now rewrite !a_entry).
    split.
    - intros H. split; [exact C1|]. split; [discriminate|]. split; [|split; discriminate]. intros d' Hd. now injection Hd as <-.
    - intros (_ & _ & H & _). now apply H. }
  cbn [is_some].
  destruct (nonempty (pg_ways g)) eqn:C3.
  { apply nonempty_iff in C3. rewrite succ_omapM.
    rewrite (Forall_iff _ (a_way_accepted chk raw) _ _ Kw) by (intros p X; now apply a_way_succ).
    split.
    - intros H. split; [exact C1|]. split; [congruence|]. split; [discriminate|]. split; [easy|congruence].
    - intros (_ & _ & _ & H & _). now apply H. }
  apply empty_iff in C3.
  destruct (nonempty (pg_rels g)) eqn:C4.
  { apply nonempty_iff in C4. rewrite succ_omapM.
    rewrite (Forall_iff _ (a_rel_accepted chk raw) _ _ Kr) by (intros p X; now apply a_rel_succ).
    split.
    - intros H. split; [exact C1|]. split; [easy|]. split; [discriminate|]. split; [congruence|easy].
    - intros (_ & _ & _ & _ & H). now apply H. }
  apply empty_iff in C4. split; [intros (x & H); discriminate|]. intros (_ & H & _). now elim (H eq_refl C3).
Qed.

(** A group, position reader. *)
Lemma p_group_succ chk b g : ok_group g ->
  succ (p_decode_group chk (gran_of b) (lat_off_of b) (lon_off_of b) g) <-> p_group_accepted chk b g.
Proof.
  intros (_ & Kd & _). unfold p_decode_group, p_group_accepted.
  destruct (nonempty (pg_nodes g)) eqn:C1.
  { apply nonempty_iff in C1. split; [intros (x & H); discriminate|]. intros (H & _). contradiction. }
  apply empty_iff in C1. destruct (nonempty (pg_ways g) || nonempty (pg_rels g)) eqn:C2.
  - rewrite succ_ret. split; [|easy]. intros _. split; [exact C1|]. intros X Y. rewrite X, Y in C2. discriminate.
  - apply orb_false_iff in C2 as (C2 & C3). apply empty_iff in C2, C3. destruct (pg_dense g) as [d|].
    + destruct Kd as (_ & _ & Hla & Hlo & _). rewrite (p_dense_succ _ _ _ _ _ Hla Hlo), place_iff. split.
      * intros H. split; [exact C1|]. intros _ _. now exists d.
      * intros (_ & H). destruct (H C2 C3) as (d' & X & Y). now injection X as <-.
    + split; [intros (x & H); discriminate|]. intros (_ & H). destruct (H C2 C3) as (d' & X & Y). discriminate.
Qed.

(** Exactly the blocks described in SpecPbfAccept are decoded without a panic. *)
Theorem C101_string : forall rt (chk : build) nodes ways rels data b, parse_block rt data = Some b ->
  (exists os, s_decode_block chk (OF nodes ways rels) b = Ret os) <-> s_accepted chk nodes ways rels b.
Proof.
  intros rt chk n w r data b Hp. pose proof (block_range _ _ _ Hp) as (Kg & _). pose proof (parsed_init _ _ _ Hp) as Hi.
  unfold s_decode_block, s_accepted. destruct (pb_strings b) as [raw|].
  2: { split; [intros (x & H); discriminate|]. intros (raw & g & H & _). discriminate. }
  cbn [unwrap obind]. destruct (pb_groups b) as [|g [|g2 gs]] eqn:Eg.
  - split; [intros (x & H); discriminate|]. intros (raw' & g & _ & H & _). discriminate.
  - assert (A := s_group_succ chk n w r b raw g (Forall_inv Kg)).
    assert (Iw : Forall (fun p => is_some (pw_id p) = true) (pg_ways g)).
    { apply (init_group b g Hi). rewrite Eg. now left. }
    specialize (A Iw). unfold succ in A.
    change (granularity b) with (gran_of b). change (lat_offset b) with (lat_off_of b). change (lon_offset b) with (lon_off_of b).
    change (date_granularity b) with (date_gran_of b). rewrite A. split.
    + intros H. now exists raw, g.
    + intros (raw' & g' & X & Y & H). injection X as <-. now injection Y as <-.
  - split; [intros (x & H); discriminate|]. intros (raw' & g' & _ & H & _). discriminate.
Qed.
Print Assumptions C101_string.

Theorem C101_arc : forall rt (chk : build) data b, parse_block rt data = Some b ->
  (exists os, a_decode_block chk b = Ret os) <-> a_accepted chk b.
Proof.
  intros rt chk data b Hp. pose proof (block_range _ _ _ Hp) as (Kg & _). pose proof (parsed_init _ _ _ Hp) as Hi.
  unfold a_accepted. destruct (pb_strings b) as [raw|] eqn:Er.
  2: { unfold pb_init in Hi. rewrite Er in Hi. discriminate. }
  unfold a_decode_block. rewrite Er. cbn [unwrap_or]. cbv zeta.
  change (granularity b) with (gran_of b). change (lat_offset b) with (lat_off_of b). change (lon_offset b) with (lon_off_of b).
  change (date_granularity b) with (date_gran_of b).
  assert (A : succ (omapM (a_decode_group chk (gran_of b) (lat_off_of b) (lon_off_of b) (date_gran_of b) (a_strings raw)) (pb_groups b)) <->
    Forall (a_group_accepted chk b raw) (pb_groups b)).
  { rewrite succ_omapM. eapply Forall_iff; [exact Kg|]. intros g X. now apply a_group_succ. }
  split.
  - intros (os & H). exists raw. split; [reflexivity|]. apply A. destruct (omapM _ (pb_groups b)) as [ls|] eqn:E; [now exists ls|discriminate].
  - intros (raw' & X & H). injection X as <-. apply A in H as (ls & ->). now eexists.
Qed.
Print Assumptions C101_arc.

Theorem C101_positions : forall rt chk data b, parse_block rt data = Some b ->
  (exists os, p_decode_block chk b = Ret os) <-> p_accepted chk b.
Proof.
  intros rt chk data b Hp. pose proof (block_range _ _ _ Hp) as (Kg & _).
  unfold p_accepted, p_decode_block.
  change (granularity b) with (gran_of b). change (lat_offset b) with (lat_off_of b). change (lon_offset b) with (lon_off_of b).
  assert (A : succ (omapM (p_decode_group chk (gran_of b) (lat_off_of b) (lon_off_of b)) (pb_groups b)) <->
    Forall (p_group_accepted chk b) (pb_groups b)).
  { rewrite succ_omapM. eapply Forall_iff; [exact Kg|]. intros g X. now apply p_group_succ. }
  rewrite <- A. split.
  - intros (os & H). destruct (omapM _ (pb_groups b)) as [ls|] eqn:E; [now exists ls|discriminate].
  - intros (ls & ->). now eexists.
Qed.
Print Assumptions C101_positions.

(** ** Files *)

(** What a blob holds: the String and position readers accept raw data only if it is
    empty, and take a blob with no data for an empty one. *)
Definition s_content (inflate : bytes -> option bytes) (bl : blob) (data : bytes) : Prop :=
  (bl_raw bl = Some [] /\ data = []) \/
  (bl_raw bl = None /\ exists z, bl_zlib bl = Some z /\ inflate z = Some data) \/
  (bl_raw bl = None /\ bl_zlib bl = None /\ data = []).
(** The Arc reader also needs the announced size of compressed data. *)
Definition a_content (inflate : bytes -> option bytes) (bl : blob) (data : bytes) : Prop :=
  bl_raw bl = Some data \/
  (bl_raw bl = None /\ exists z n, bl_zlib bl = Some z /\ bl_raw_size bl = Some n /\ 0 <= n /\ inflate z = Some data).

(** A blob whose data is a block that the reader accepts. *)
Definition holds (rt : pbrt) (content : blob -> bytes -> Prop) (accepted : pblock -> Prop) (bl : blob) : Prop :=
  exists data b, content bl data /\ parse_block rt data = Some b /\ accepted b.
(** The String reader passes over empty blobs. *)
Definition s_blob_accepted (rt : pbrt) (chk : build) (inflate : bytes -> option bytes) (nodes ways rels : bool) (bl : blob) : Prop :=
  s_content inflate bl [] \/ holds rt (s_content inflate) (s_accepted chk nodes ways rels) bl.

(** Reading a file of the data blobs [bs]: either all of them are accepted, and the
    reader returns the objects of each in order and reaches the end; or it returns the
    objects of the blobs before the first that is not, and panics. *)
Definition reads {St A} (next : St -> outcome (option A * St)) (start : St) (decode : blob -> outcome (list A))
    (accepted : blob -> Prop) (bs : list blob) : Prop :=
  (Forall accepted bs /\ exists ls e, Forall2 (fun b l => decode b = Ret l) bs ls /\ Runs next start (concat ls) (Ret e)) \/
  (exists bs1 b bs2 ls, bs = bs1 ++ b :: bs2 /\ Forall accepted bs1 /\ ~ accepted b /\
     Forall2 (fun b l => decode b = Ret l) bs1 ls /\ Runs next start (concat ls) Panic).

Lemma split_first {A} (decode : blob -> outcome (list A)) (accepted : blob -> Prop) : forall bs,
  Forall (fun b => succ (decode b) <-> accepted b) bs ->
  (Forall accepted bs /\ exists ls, Forall2 (fun b l => decode b = Ret l) bs ls) \/
  (exists bs1 b bs2 ls, bs = bs1 ++ b :: bs2 /\ Forall accepted bs1 /\ ~ accepted b /\ decode b = Panic /\
     Forall2 (fun b l => decode b = Ret l) bs1 ls).
Proof.
  induction bs as [|b bs IH]; intros H.
  - left. split; [constructor|]. exists []. constructor.
  - inversion H as [|? ? Hb H']; subst. destruct (decode b) as [l|] eqn:E.
    + assert (Ab : accepted b) by (apply Hb; now exists l).
      destruct (IH H') as [(F & ls & G)|(bs1 & c & bs2 & ls & -> & F & N & P & G)].
      * left. split; [now constructor|]. exists (l :: ls). now constructor.
      * right. exists (b :: bs1), c, bs2, (l :: ls). split; [reflexivity|]. split; [now constructor|]. split; [exact N|]. split; [exact P|].
        now constructor.
    + right. exists [], b, bs, []. split; [reflexivity|]. split; [constructor|]. split; [|split; [exact E|constructor]].
      intros C. apply Hb in C as (l & C). discriminate.
Qed.

Lemma s_content_iff inflate bl data : s_blob_data inflate bl = Ret data <-> s_content inflate bl data.
Proof.
  unfold s_blob_data, s_content. destruct (bl_raw bl) as [[|x raw]|].
  - split; [intros H; injection H as <-; now left|]. intros [(_ & ->)|[(X & _)|(X & _)]]; [reflexivity|discriminate ..].
  - split; [discriminate|]. intros [(X & _)|[(X & _)|(X & _)]]; discriminate.
  - destruct (bl_zlib bl) as [z|].
    + split.
      * intros H. right. left. split; [reflexivity|]. exists z. split; [reflexivity|]. destruct (inflate z); [now injection H as <-|discriminate].
      * intros [(X & _)|[(_ & z' & X & E)|(_ & X & _)]]; [discriminate| |discriminate]. injection X as <-. now rewrite E.
    + split; [intros H; injection H as <-; right; now right|]. intros [(X & _)|[(_ & z' & X & E)|(_ & _ & ->)]]; [discriminate|discriminate|reflexivity].
Qed.
Lemma a_content_iff inflate bl data : a_blob_data inflate bl = Ret data <-> a_content inflate bl data.
Proof.
  unfold a_blob_data, a_content. destruct (bl_raw bl) as [raw|].
  - split; [intros H; injection H as <-; now left|]. intros [X|(X & _)]; [now injection X as <-|discriminate].
  - destruct (bl_zlib bl) as [z|].
    + destruct (bl_raw_size bl) as [n|]; cbn [unwrap obind].
      * destruct (n <? 0) eqn:En.
        -- split; [discriminate|]. intros [X|(_ & z' & n' & _ & X & L & _)]; [discriminate|]. injection X as <-. lia.
        -- split.
           ++ intros H. right. split; [reflexivity|]. exists z, n. split; [reflexivity|]. split; [reflexivity|]. split; [lia|].
              destruct (inflate z); [now injection H as <-|discriminate].
           ++ intros [X|(_ & z' & n' & X & _ & _ & E)]; [discriminate|]. injection X as <-. now rewrite E.
      * split; [discriminate|]. intros [X|(_ & z' & n' & _ & X & _)]; discriminate.
    + split; [discriminate|]. intros [X|(_ & z' & n' & X & _)]; discriminate.
Qed.

Lemma no_empty_block rt : parse_block rt [] = None.
Proof. reflexivity. Qed.

Lemma s_blob_succ rt (chk : build) inflate n w r bl :
  succ (s_blob rt chk inflate (OF n w r) bl) <-> s_blob_accepted rt chk inflate n w r bl.
Proof.
  unfold s_blob, s_blob_accepted, holds. rewrite succ_bind. split.
  - intros (data & E & H). apply s_content_iff in E. destruct data as [|x data]; [now left|right].
    apply succ_bind in H as (b & Eb & H). destruct (parse_block rt (x :: data)) as [b'|] eqn:P; [|discriminate]. injection Eb as ->.
    exists (x :: data), b. split; [exact E|]. split; [exact P|]. now apply (C101_string rt chk n w r _ _ P).
  - intros [E|(data & b & E & P & H)].
    + exists []. split; [now apply s_content_iff|]. now apply succ_ret.
    + exists data. split; [now apply s_content_iff|]. destruct data as [|x data]; [now apply succ_ret|]. rewrite P. cbn [unwrap obind].
      now apply (C101_string rt chk n w r _ _ P).
Qed.
Lemma a_blob_succ rt (chk : build) inflate bl :
  succ (a_blob rt chk inflate bl) <-> holds rt (a_content inflate) (a_accepted chk) bl.
Proof.
  unfold a_blob, holds. rewrite succ_bind. split.
  - intros (data & E & H). apply a_content_iff in E. apply succ_bind in H as (b & Eb & H).
    destruct (parse_block rt data) as [b'|] eqn:P; [|discriminate]. injection Eb as ->.
    exists data, b. split; [exact E|]. split; [exact P|]. now apply (C101_arc rt chk _ _ P).
  - intros (data & b & E & P & H). exists data. split; [now apply a_content_iff|]. rewrite P. cbn [unwrap obind].
    now apply (C101_arc rt chk _ _ P).
Qed.
Lemma p_blob_succ rt chk inflate bl : succ (p_blob rt chk inflate bl) <-> holds rt (s_content inflate) (p_accepted chk) bl.
Proof.
  unfold p_blob, holds. rewrite succ_bind. split.
  - intros (data & E & H). apply s_content_iff in E. apply succ_bind in H as (b & Eb & H).
    destruct (parse_block rt data) as [b'|] eqn:P; [|discriminate]. injection Eb as ->.
    exists data, b. split; [exact E|]. split; [exact P|]. now apply (C101_positions rt chk _ _ P).
  - intros (data & b & E & P & H). exists data. split; [now apply s_content_iff|]. rewrite P. cbn [unwrap obind].
    now apply (C101_positions rt chk _ _ P).
Qed.

Theorem C101_files : forall rt (chk : build) inflate nodes ways rels is, Forall item_ok is ->
  let src := file_bytes (map item_frame is) in let bs := filter_map item_blob is in
  reads (s_next rt chk inflate) (s_set_filter (OF nodes ways rels) (s_new src)) (s_blob rt chk inflate (OF nodes ways rels))
    (s_blob_accepted rt chk inflate nodes ways rels) bs /\
  reads (a_next rt chk inflate) (src, []) (a_blob rt chk inflate) (holds rt (a_content inflate) (a_accepted chk)) bs /\
  reads (p_next rt chk inflate) (src, []) (p_blob rt chk inflate) (holds rt (s_content inflate) (p_accepted chk)) bs.
Proof.
  intros rt chk inflate n w r is Hi src bs. pose proof (C33_data_blobs_in_order rt is Hi) as R. fold src bs in R. split; [|split].
  - assert (Ev' : Forall (fun b => succ (s_blob rt chk inflate (OF n w r) b) <-> s_blob_accepted rt chk inflate n w r b) bs).
    { apply Forall_forall. intros b _. apply s_blob_succ. }
    destruct (split_first _ _ bs Ev') as [(F & ls & G)|(bs1 & b & bs2 & ls & E & F & N & P & G)].
    + left. split; [exact F|]. exists ls. pose proof (runs_buffered rt _ _ _ _ R ls [] G) as R'. apply s_next_runs in R'.
      eexists. split; [exact G|]. exact R'.
    + right. exists bs1, b, bs2, ls. do 4 (split; [assumption|]). rewrite E in R.
      pose proof (runs_buffered_panic rt _ _ _ _ _ _ R P ls [] G) as R'. apply s_next_runs in R'. exact R'.
  - assert (Ev' : Forall (fun b => succ (a_blob rt chk inflate b) <-> holds rt (a_content inflate) (a_accepted chk) b) bs).
    { apply Forall_forall. intros b _. apply a_blob_succ. }
    destruct (split_first _ _ bs Ev') as [(F & ls & G)|(bs1 & b & bs2 & ls & E & F & N & P & G)].
    + left. split; [exact F|]. exists ls. pose proof (runs_buffered rt _ _ _ _ R ls [] G) as R'. apply a_next_runs in R'.
      eexists. split; [exact G|]. exact R'.
    + right. exists bs1, b, bs2, ls. do 4 (split; [assumption|]). rewrite E in R.
      pose proof (runs_buffered_panic rt _ _ _ _ _ _ R P ls [] G) as R'. apply a_next_runs in R'. exact R'.
  - assert (Ev' : Forall (fun b => succ (p_blob rt chk inflate b) <-> holds rt (s_content inflate) (p_accepted chk) b) bs).
    { apply Forall_forall. intros b _. apply p_blob_succ. }
    destruct (split_first _ _ bs Ev') as [(F & ls & G)|(bs1 & b & bs2 & ls & E & F & N & P & G)].
    + left. split; [exact F|]. exists ls. pose proof (runs_buffered rt _ _ _ _ R ls [] G) as R'. eexists. split; [exact G|]. exact R'.
    + right. exists bs1, b, bs2, ls. do 4 (split; [assumption|]). rewrite E in R.
      exact (runs_buffered_panic rt _ _ _ _ _ _ R P ls [] G).
Qed.
Print Assumptions C101_files.

(** Accepted by all: two dense nodes.  Not accepted by the Arc reader: a way without
    the visible flag.  Refused by the String and Arc readers but not by the position
    reader: the largest user id. *)
Definition ex_uid : pblock :=
  PBlock (Some [[]; [117]]) [PGroup [] (Some (DenseNodes [1] (Some (DenseInfo [1] [0] [0] [2147483647] [0] [])) [0] [0] [0])) [] [] []] None None None None.
Example C101_example :
  (exists data, parse_block ex_rt data = Some ex_dense) /\
  s_accepted (plain true) true true true ex_dense /\ a_accepted (plain true) ex_dense /\ p_accepted true ex_dense /\
  s_accepted (plain true) true true true (way_block 1000 None 1000) /\ ~ a_accepted (plain true) (way_block 1000 None 1000) /\
  ~ s_accepted (plain false) true true true ex_uid /\ s_accepted (plain false) false true true ex_uid /\ ~ a_accepted (plain false) ex_uid /\ p_accepted false ex_uid.
Proof.
  assert (P1 : parse_block ex_rt (ser (pb_fields ex_dense)) = Some ex_dense) by (vm_compute; reflexivity).
  assert (P2 : parse_block ex_rt (ser (pb_fields (way_block 1000 None 1000))) = Some (way_block 1000 None 1000)) by (vm_compute; reflexivity).
  assert (P3 : parse_block ex_rt (ser (pb_fields ex_uid)) = Some ex_uid) by (vm_compute; reflexivity).
  split; [eexists; exact P1|].
  split; [apply (C101_string _ (plain true) true true true _ _ P1); eexists; vm_compute; reflexivity|].
  split; [apply (C101_arc _ (plain true) _ _ P1); eexists; vm_compute; reflexivity|].
  split; [apply (C101_positions _ true _ _ P1); eexists; vm_compute; reflexivity|].
  split; [apply (C101_string _ (plain true) true true true _ _ P2); eexists; vm_compute; reflexivity|].
  split; [intros H; apply (C101_arc _ (plain true) _ _ P2) in H as (os & H); vm_compute in H; discriminate|].
  split; [intros H; apply (C101_string _ (plain false) true true true _ _ P3) in H as (os & H); vm_compute in H; discriminate|].
  split; [apply (C101_string _ (plain false) false true true _ _ P3); eexists; vm_compute; reflexivity|].
  split; [intros H; apply (C101_arc _ (plain false) _ _ P3) in H as (os & H); vm_compute in H; discriminate|].
  apply (C101_positions _ false _ _ P3); eexists; vm_compute; reflexivity.
Qed.
(** A spare member type that is unknown: it depends on whether zip looks at it. *)
Definition curious : build := Build true (fun _ _ _ => true) (fun _ _ _ => true) (fun _ _ => true).
Example C101_uneven : let b := rel_block (Some true) [0] [5] [0; 7] in
  (exists data, parse_block ex_rt data = Some b) /\
  s_accepted (plain true) true true true b /\ a_accepted (plain true) b /\
  ~ s_accepted curious true true true b /\ ~ a_accepted curious b.
Proof.
  intros b. assert (P : parse_block ex_rt (ser (pb_fields b)) = Some b) by (vm_compute; reflexivity).
  split; [eexists; exact P|].
  split; [apply (C101_string _ (plain true) true true true _ _ P); eexists; vm_compute; reflexivity|].
  split; [apply (C101_arc _ (plain true) _ _ P); eexists; vm_compute; reflexivity|].
  split; [intros H; apply (C101_string _ curious true true true _ _ P) in H as (os & H); vm_compute in H; discriminate|].
  intros H; apply (C101_arc _ curious _ _ P) in H as (os & H); vm_compute in H; discriminate.
Qed.
