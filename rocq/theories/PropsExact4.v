(** Exactly where more of the partly false properties of the PBF readers hold: C34, C37,
    C38, C41, C44, C45, C61 and C71. *)
From Coq Require Import String ZArith List Bool Lia.
From Coq Require Import ZifyBool ZifyNat.
From Verif Require Import Base Ints Utf8 Timestamp Obj SpecObj PbWire PbMsg PbMsgFacts PbfRead SpecPbf SpecPbfRead SpecIter
  PbfFacts PbfExact PbfEncode PbRange PbfSound PbfFrame PropsPbfFile PropsPbfBlock PropsPbfEdge PropsPbfText PropsPbf PropsFlow.
Import ListNotations.
Open Scope Z_scope.

(** ** C34 *)

(** A file that is cut inside a blob ([q] is what is left of the blob): every reader
    returns the objects of the blobs before, and then it notices the cut (panics) exactly
    when at least the four bytes of the blob's size are there. *)
Theorem C34_exact : forall rt chk inflate flt is i q r,
  Forall item_ok is -> item_ok i -> frame_bytes (item_frame i) = q ++ r -> q <> [] -> r <> [] ->
  let src := file_bytes (map item_frame is) ++ q in
  (forall ls, Forall2 (fun b l => s_blob rt chk inflate flt b = Ret l) (filter_map item_blob is) ls ->
     exists e, Runs (s_next rt chk inflate) (SReader src [] flt) (concat ls) e /\ (e = Panic <-> (4 <= length q)%nat)) /\
  (forall ls, Forall2 (fun b l => a_blob rt chk inflate b = Ret l) (filter_map item_blob is) ls ->
     exists e, Runs (a_next rt chk inflate) (src, []) (concat ls) e /\ (e = Panic <-> (4 <= length q)%nat)) /\
  (forall ls, Forall2 (fun b l => p_blob rt chk inflate b = Ret l) (filter_map item_blob is) ls ->
     exists e, Runs (p_next rt chk inflate) (src, []) (concat ls) e /\ (e = Panic <-> (4 <= length q)%nat)).
Proof.
  intros rt chk inflate flt is i q r H Hi Hq Nq Nr src.
  assert (L : (1 <= length q < length (frame_bytes (item_frame i)))%nat).
  { rewrite Hq, app_length. destruct q; [contradiction|]. destruct r; [contradiction|]. cbn. lia. }
  destruct (Nat.le_gt_cases 4 (length q)) as [Hl|Hl].
  - assert (L4 : (4 <= length q < length (frame_bytes (item_frame i)))%nat) by lia.
    destruct (C34_truncation_noticed_partial rt chk inflate flt is i q H Hi L4 (ex_intro _ r Hq)) as (A & B & C).
    split; [|split]; intros ls F; exists Panic; (split; [auto|tauto]).
  - assert (L4 : (1 <= length q < 4)%nat) by lia.
    pose proof (C34_truncation_refuted rt is i q H Hi L4 (ex_intro _ r Hq)) as R. fold src in R.
    split; [|split]; intros ls F.
    + eexists. split; [apply (s_next_runs rt chk inflate flt src [] (concat ls) (Ret ([], []))); exact (runs_buffered rt _ _ _ _ R ls [] F)|].
      split; [discriminate|lia].
    + eexists. split; [apply (a_next_runs rt chk inflate src [] (concat ls) (Ret ([], []))); exact (runs_buffered rt _ _ _ _ R ls [] F)|].
      split; [discriminate|lia].
    + eexists. split; [exact (runs_buffered rt _ _ _ _ R ls [] F)|]. split; [discriminate|lia].
Qed.
Print Assumptions C34_exact.
Example C34_exact_ex : exists i q r q' r', item_ok i /\ frame_bytes (item_frame i) = q ++ r /\ length q = 3%nat /\ r <> [] /\
  frame_bytes (item_frame i) = q' ++ r' /\ length q' = 10%nat /\ r' <> [].
Proof.
  destruct C33_example as (H & _). inv H. exists (Other (lit "OSMHeader") None [1;2;3]).
  set (l := frame_bytes _). exists (firstn 3 l), (skipn 3 l), (firstn 10 l), (skipn 10 l).
  split; [assumption|]. split; [now rewrite firstn_skipn|]. split; [vm_compute; reflexivity|]. split; [vm_compute; discriminate|].
  split; [now rewrite firstn_skipn|]. split; [vm_compute; reflexivity|]. vm_compute; discriminate.
Qed.

(** ** C37 *)

Lemma coord_right gran off raw x : pos_read gran off raw x ->
  (coord_is gran off raw x <-> Z.rem off 100 + Z.rem gran 100 * raw = 0 /\ in_i32 (Z.quot off 100 + Z.quot gran 100 * raw)).
Proof.
  intros (Hr & Hx & (k & Ek) & _). unfold coord_is.
  pose proof (Z.quot_rem' off 100) as Eo. pose proof (Z.quot_rem' gran 100) as Eg.
  set (qo := Z.quot off 100) in *. set (qg := Z.quot gran 100) in *.
  assert (Ho : -100 < Z.rem off 100 < 100) by (pose proof (Z.rem_bound_abs off 100 ltac:(lia)); lia).
  assert (Hg : -100 < Z.rem gran 100 < 100) by (pose proof (Z.rem_bound_abs gran 100 ltac:(lia)); lia).
  set (ro := Z.rem off 100) in *. set (rg := Z.rem gran 100) in *. clearbody qo qg ro rg.
  assert (Eq : off + gran * raw = 100 * (qo + qg * raw) + (ro + rg * raw)) by (rewrite Eo, Eg; ring).
  assert (B : Z.abs (rg * raw) <= 99 * 2^31).
  { rewrite Z.abs_mul. unfold in_i32 in Hr. apply Z.mul_le_mono_nonneg; lia. }
  split.
  - intros E. rewrite Eq, Ek in E. assert (Hk : ro + rg * raw = 100 * 2^32 * k) by lia.
    assert (k = 0) by lia. subst k. split; [lia|]. replace (qo + qg * raw) with x by lia. exact Hx.
  - intros (E & Hin). rewrite (i32_unique _ _ _ Hin Hx Ek), Eq, E. lia.
Qed.

(** The coordinate the format prescribes for node [i] of a dense group is returned exactly
    when it is a whole number of 100 nanodegrees even with the parts of the offset and the
    granularity below 100 nanodegrees left out, and fits 32 bits. *)
Theorem C37_exact : forall rt chk b raw os, decodes rt chk b raw os ->
  per_group b os (fun g l => forall d, pg_dense g = Some d ->
    forall i o, nth_error l i = Some o -> exists n la lo, o = SNode n /\ sn_latlon n = Some (la, lo) /\
      (coord_is (gran_of b) (lat_off_of b) (sum_to i (dn_lat d)) la <->
         Z.rem (lat_off_of b) 100 + Z.rem (gran_of b) 100 * sum_to i (dn_lat d) = 0 /\
         in_i32 (Z.quot (lat_off_of b) 100 + Z.quot (gran_of b) 100 * sum_to i (dn_lat d))) /\
      (coord_is (gran_of b) (lon_off_of b) (sum_to i (dn_lon d)) lo <->
         Z.rem (lon_off_of b) 100 + Z.rem (gran_of b) 100 * sum_to i (dn_lon d) = 0 /\
         in_i32 (Z.quot (lon_off_of b) 100 + Z.quot (gran_of b) 100 * sum_to i (dn_lon d)))).
Proof.
  intros rt chk b raw os H. eapply per_group_mono; [|eapply C35_dense_nodes; exact H].
  intros g l G d Hd. destruct (G d Hd) as (L & di & runs & _ & _ & _ & D).
  intros i o Ho. destruct (D i o Ho) as (n & -> & R). destruct (dr_pos _ _ _ _ _ _ _ _ R) as (la & lo & Ep & P1 & P2).
  exists n, la, lo. split; [reflexivity|]. split; [exact Ep|]. split; now apply coord_right.
Qed.
Print Assumptions C37_exact.

(** ** C38 *)

(** What every accepted block's timestamps are, whatever the date granularity: for a way
    or relation the raw number (right exactly if the granularity is 1000 or the number
    0); for a dense node the scale applied again at every node, in 32 bits. *)
Theorem C38_exact : forall rt chk b raw os, decodes rt chk b raw os ->
  per_group b os (fun g l =>
    (forall d, pg_dense g = Some d -> forall i o, nth_error l i = Some o -> exists di t, dn_info d = Some di /\
       m_timestamp (s_meta o) = Some (EpochNumber t) /\
       as32 false (compounded (Z.quot (date_gran_of b) 1000) (firstn (S i) (di_timestamp di))) t /\
       (time_is (date_gran_of b) (sum_to i (di_timestamp di)) (m_timestamp (s_meta o)) <->
        1000 * t = date_gran_of b * sum_to i (di_timestamp di))) /\
    (pg_dense g = None -> pg_ways g <> [] ->
       Forall2 (fun p o => exists inf ts, pw_info p = Some inf /\ i_timestamp inf = Some ts /\
                   m_timestamp (s_meta o) = Some (EpochNumber ts) /\
                   (time_is (date_gran_of b) ts (m_timestamp (s_meta o)) <-> date_gran_of b = 1000 \/ ts = 0)) (pg_ways g) l) /\
    (pg_dense g = None -> pg_ways g = [] ->
       Forall2 (fun p o => exists inf ts, pr_info p = Some inf /\ i_timestamp inf = Some ts /\
                   m_timestamp (s_meta o) = Some (EpochNumber ts) /\
                   (time_is (date_gran_of b) ts (m_timestamp (s_meta o)) <-> date_gran_of b = 1000 \/ ts = 0)) (pg_rels g) l)).
Proof.
  intros rt chk b raw os H. eapply per_group_mono; [|eapply decoded_groups; exact H].
  assert (T : forall ts m, m = Some (EpochNumber ts) -> (time_is (date_gran_of b) ts m <-> date_gran_of b = 1000 \/ ts = 0)).
  { intros ts m ->. unfold time_is. split.
    - intros (s & E & E2). injection E as <-.
      assert (E3 : (1000 - date_gran_of b) * ts = 0) by lia. apply Z.mul_eq_0 in E3 as [E3|E3]; lia.
    - intros E. exists ts. split; [reflexivity|]. destruct E as [-> | ->]; lia. }
  intros g l (G1 & G2 & G3). split; [|split].
  - intros d Hd. destruct (G1 d Hd) as (L & di & runs & Edi & _ & _ & R).
    intros i o Ho. destruct (R i o Ho) as (n & -> & [_ _ _ R4 R5 _ _ _ _]). destruct (dn_info d) as [x|].
    + subst di. destruct R5 as (t & E1 & A). exists x, t. split; [reflexivity|]. cbn [s_meta]. split; [exact E1|]. split; [exact A|].
      rewrite E1. unfold time_is. split; [intros (s & E & E2); now injection E as <-|intros E; now exists t].
    + exfalso. subst di. destruct R4 as (v & x & C & _). now destruct i.
  - intros Hd Hw. eapply Forall2_mono; [|exact (G2 Hd Hw)]. intros p o (w & -> & _ & M & _).
    destruct M as (inf & v & ts & cs & uid & sid & x & y & z & u & E1 & _ & _ & _ & E2 & E3 & _).
    exists inf, ts. split; [exact E1|]. split; [exact E2|]. split; [exact E3|]. now apply T.
  - intros Hd Hw. eapply Forall2_mono; [|exact (G3 Hd Hw)]. intros p o (w & -> & _ & M & _).
    destruct M as (inf & v & ts & cs & uid & sid & x & y & z & u & E1 & _ & _ & _ & E2 & E3 & _).
    exists inf, ts. split; [exact E1|]. split; [exact E2|]. split; [exact E3|]. now apply T.
Qed.
Print Assumptions C38_exact.

(** Granularity 150 and date granularity 2000: latitudes wrong, longitudes 0 right, the
    first time right (10 = 2 * 5), the second one wrong (30 instead of 20). *)
Example C38_exact_ex : let b := dense_block 150 2000 [1; 1] [2; 1] [0; 0] [5; 5] in
  exists raw os, decodes ex_rt (plain true) b raw os /\
    map (fun o => opt_map sn_latlon (into_node o)) os = [Some (Some (2, 0)); Some (Some (3, 0))] /\
    map (fun o => m_timestamp (s_meta o)) os = [Some (EpochNumber 10); Some (EpochNumber 30)].
Proof.
  cbv zeta. eexists _, _. split; [split; [exists (ser_block (dense_block 150 2000 [1; 1] [2; 1] [0; 0] [5; 5])); vm_compute; reflexivity|]|].
  - split; [vm_compute; reflexivity|]. left. vm_compute. reflexivity.
  - split; reflexivity.
Qed.

(** ** C44 *)

(** The data of a blob, stored raw and compressed: the Arc reader sees the same; the
    String and the position reader see the same exactly if there is no data, or they
    would panic on the data anyway. *)
Theorem C44_exact : forall rt chk inflate flt raw z n b1 b2, inflate z = Some raw -> 0 <= n ->
  bl_raw b1 = Some raw -> bl_raw b2 = None -> bl_zlib b2 = Some z -> bl_raw_size b2 = Some n ->
  a_blob rt chk inflate b1 = a_blob rt chk inflate b2 /\
  (s_blob rt chk inflate flt b1 = s_blob rt chk inflate flt b2 <-> raw = [] \/ s_blob rt chk inflate flt b2 = Panic) /\
  (p_blob rt chk inflate b1 = p_blob rt chk inflate b2 <-> raw = [] \/ p_blob rt chk inflate b2 = Panic).
Proof.
  intros rt chk inflate flt raw z n b1 b2 Hz Hn R1 R2 Z2 N2. split; [eapply C44_raw_blobs_partial; eassumption|].
  split; unfold s_blob, p_blob, s_blob_data; rewrite R1, R2, Z2, Hz; cbn [unwrap obind]; destruct raw as [|x raw]; cbn [obind];
    (split; [auto|intros [E|E]; [try discriminate; reflexivity|auto]]).
Qed.
Print Assumptions C44_exact.

(** ** C45 *)

(** A dense group without key/value column and the same group with one that says no node
    has tags: the Arc reader sees the same nodes, the position reader the same positions;
    the String reader sees the same exactly if the group has no nodes, or it would panic
    on the group anyway (or nodes are not asked for). *)
Theorem C45_exact : forall chk flt b d, dn_keys_vals d = [] ->
  let tagless := with_groups b [dense_group d] in
  let explicit := with_groups b [dense_group (with_kv d (column (repeat [] (length (dn_id d)))))] in
  seen (a_decode_block chk tagless) = seen (a_decode_block chk explicit) /\
  p_decode_block chk tagless = p_decode_block chk explicit /\
  (s_decode_block chk flt tagless = s_decode_block chk flt explicit <->
     dn_id d = [] \/ f_nodes flt = false \/ s_decode_block chk flt explicit = Panic).
Proof.
  intros chk flt b d Hk tagless explicit. split; [now apply C45_tagless_dense_partial|]. split; [reflexivity|].
  assert (Same : dn_id d = [] \/ f_nodes flt = false -> s_decode_block chk flt tagless = s_decode_block chk flt explicit).
  { intros Hc. unfold tagless, explicit, s_decode_block, with_groups, s_decode_group, dense_group.
    cbn [pb_strings pb_groups pg_nodes pg_dense nonempty is_some unwrap_or andb with_kv pg_ways pg_rels]. cbv zeta.
    destruct (pb_strings b) as [raw|]; [|reflexivity]. cbn [unwrap obind].
    destruct (f_nodes flt) eqn:Ef; [|reflexivity]. destruct Hc as [Hc|Hc]; [|discriminate].
    destruct (s_strings raw) as [st|]; [|reflexivity]. cbn [obind]. unfold s_decode_dense. cbn [with_kv dn_id]. now rewrite Hc. }
  destruct (dn_id d) as [|i ids] eqn:Ei; [split; [tauto|intros _; apply Same; now left]|].
  destruct (f_nodes flt) eqn:Ef; [|split; [tauto|intros _; apply Same; now right]].
  assert (P : s_decode_block chk flt tagless = Panic).
  { apply (C45_tagless_dense_refuted chk flt b d Ef); [rewrite Ei; discriminate|exact Hk]. }
  rewrite P. split; [intros E; right; right; now symmetry|]. intros [E|[E|E]]; [discriminate|discriminate|now symmetry].
Qed.
Print Assumptions C45_exact.

(** ** C61 *)

(** A reader with objects [sr_buf s] in its buffer, all of the file still to be read
    accepted ([rest]), with groups of one kind.  After nodes(), ways() or relations(),
    objects() yields what is in the buffer and then those of [rest] that are of the kind:
    everything exactly if all of [rest] is of the kind. *)
Theorem C61_exact : forall rt chk inflate src buf flt rest e,
  file_groups rt inflate one_kind src ->
  Runs (s_next rt chk inflate) (SReader src buf (OF true true true)) (buf ++ rest) (Ret e) ->
  exists os e', Runs (s_next rt chk inflate) (s_set_filter flt (SReader src buf (OF true true true))) os (Ret e') /\
    os = buf ++ filter (of_kind flt) rest /\
    (os = buf ++ rest <-> Forall (fun o => of_kind flt o = true) rest).
Proof.
  intros rt chk infl src buf flt rest e K H.
  apply s_next_runs_inv in H as (r' & H & Er). cbn [sr_filter sr_src sr_buf] in *.
  apply buffered_inv in H as (bs & rb & R & [(ls & F & El & ->)|(bs1 & b & bs2 & ls & -> & Hp & F & El & ->)]); [|discriminate].
  destruct rb as [rb|]; [|discriminate]. apply app_inv_head in El. subst rest.
  pose proof (blobs_filter rt chk infl flt bs ls (K _ _ R) F) as F'.
  pose proof (runs_buffered rt _ _ _ _ R _ buf F') as R'. apply s_next_runs in R'.
  eexists _, _. split; [exact R'|]. rewrite filter_concat. split; [reflexivity|].
  rewrite <- filter_concat. split.
  - intros E. apply app_inv_head in E. rewrite <- E. apply Forall_forall. intros o Ho. now apply filter_In in Ho.
  - intros A. f_equal. induction A as [|o l Ho _ IH]; [reflexivity|]. cbn [filter]. rewrite Ho. now f_equal.
Qed.
Print Assumptions C61_exact.

(** ** C41 *)

(** A data blob the position reader reads as the full reader does: it has data, and its
    group either has ways or relations and no node in its dense part, or has a dense part
    and neither ways nor relations. *)
Definition positions_group (g : pgroup) : Prop :=
  if nonempty (pg_ways g) || nonempty (pg_rels g)
  then forall d, pg_dense g = Some d -> dn_id d = [] else pg_dense g <> None.
Definition positions_blob (rt : pbrt) (inflate : bytes -> option bytes) (b : blob) : Prop :=
  exists z data blk g, bl_raw b = None /\ bl_zlib b = Some z /\ inflate z = Some data /\ data <> [] /\
    parse_block rt data = Some blk /\ pb_groups blk = [g] /\ positions_group g.

Lemma positions_group_iff chk gran lato lono dg raw g l :
  s_decode_group chk gran lato lono dg raw (OF true true true) g = Ret l ->
  (positions_group g /\ p_decode_group chk gran lato lono g = Ret (filter_map node_pos l)) \/
  (~ positions_group g /\ (p_decode_group chk gran lato lono g = Panic \/
     p_decode_group chk gran lato lono g = Ret [] /\ filter_map node_pos l <> [])).
Proof.
  intros H. unfold positions_group. destruct (pg_nodes g) as [|n0 ns0] eqn:En.
  2:{ unfold s_decode_group in H. rewrite En in H. discriminate. }
  destruct (pg_dense g) as [d|] eqn:Ed.
  - destruct (nonempty (pg_ways g) || nonempty (pg_rels g)) eqn:Ew.
    + assert (P : p_decode_group chk gran lato lono g = Ret []) by (unfold p_decode_group; rewrite En, Ew; reflexivity).
      rewrite P. unfold s_decode_group in H. rewrite En, Ed in H. cbn [nonempty is_some f_nodes andb unwrap_or] in H. cbv zeta in H.
      destruct (s_strings raw) as [st|]; [|discriminate]. cbn [obind] in H. unfold s_decode_dense in H.
      pose proof (dense_loop_len _ _ _ _ _ H) as L.
      destruct (dn_id d) as [|i ids] eqn:Ei.
      * left. split; [intros d' E; injection E as <-; exact Ei|]. cbn in H. injection H as <-. reflexivity.
      * right. split; [intros C; specialize (C d eq_refl); congruence|]. right. split; [reflexivity|].
        cbn [length dense_loop] in H. match type of H with obind ?e _ = _ => destruct e as [[o s']|] eqn:Es; [|discriminate] end.
        cbn [obind] in H. binds H. injection H as <-. unfold s_dense_step in Es. binds Es. injection Es as <- _. discriminate.
    + left. split; [discriminate|]. apply orb_false_iff in Ew as (Ew & Er).
      destruct (pg_ways g) as [|? ?] eqn:Ew'; [|discriminate]. destruct (pg_rels g) as [|? ?] eqn:Er'; [|discriminate].
      eapply group_positions; [|exact H]. split; [right; left; auto|]. right. left. congruence.
  - destruct (nonempty (pg_ways g) || nonempty (pg_rels g)) eqn:Ew.
    + left. split; [discriminate|]. assert (P : p_decode_group chk gran lato lono g = Ret []) by (unfold p_decode_group; rewrite En, Ew; reflexivity).
      rewrite P. f_equal. symmetry. unfold s_decode_group in H. rewrite En, Ed in H. cbn [nonempty is_some f_nodes andb f_ways f_rels] in H. cbv zeta in H.
      rewrite !andb_true_r in H. destruct (nonempty (pg_ways g)).
      * destruct (s_strings raw) as [st|]; [|discriminate]. cbn [obind] in H. apply filter_map_none. apply omapM_inv in H.
        clear -H. induction H as [|p o ps os E _ IH]; constructor; [|exact IH]. unfold s_decode_way in E. binds E. now injection E as <-.
      * cbn [orb] in Ew. rewrite Ew in H. destruct (s_strings raw) as [st|]; [|discriminate]. cbn [obind] in H. apply filter_map_none.
        apply omapM_inv in H. clear -H. induction H as [|p o ps os E _ IH]; constructor; [|exact IH]. unfold s_decode_rel in E. binds E. now injection E as <-.
    + right. split; [congruence|]. left. unfold p_decode_group. rewrite En, Ew, Ed. reflexivity.
Qed.

Lemma positions_blob_iff rt chk infl b l : s_blob rt chk infl (OF true true true) b = Ret l ->
  (positions_blob rt infl b /\ p_blob rt chk infl b = Ret (filter_map node_pos l)) \/
  (~ positions_blob rt infl b /\ (p_blob rt chk infl b = Panic \/ p_blob rt chk infl b = Ret [] /\ filter_map node_pos l <> [])).
Proof.
  intros H.
  assert (Pn : parse_block rt [] = None) by reflexivity.
  unfold s_blob, p_blob, s_blob_data in *. unfold positions_blob.
  destruct (bl_raw b) as [[|x raw]|] eqn:Er; [|discriminate|]; cbn [obind] in *.
  { right. rewrite Pn. split; [intros (? & ? & ? & ? & C & _); discriminate|now left]. }
  destruct (bl_zlib b) as [z|] eqn:Ez; cbn [obind] in *.
  2:{ right. rewrite Pn. split; [intros (? & ? & ? & ? & _ & C & _); discriminate|now left]. }
  destruct (infl z) as [[|x data]|] eqn:Ei; cbn [unwrap obind] in *; [| |discriminate].
  { right. rewrite Pn. split; [intros (z' & data & ? & ? & _ & C & C2 & C3 & _)|now left].
    injection C as <-. rewrite Ei in C2. injection C2 as <-. now apply C3. }
  destruct (parse_block rt (x :: data)) as [blk|] eqn:Ep; [|discriminate]. cbn [unwrap obind] in *.
  unfold s_decode_block in H. destruct (pb_strings blk) as [raw|]; [|discriminate]. cbn [unwrap obind] in H.
  destruct (pb_groups blk) as [|g [|]] eqn:Eg; try discriminate.
  unfold p_decode_block. rewrite Eg. cbn [omapM].
  destruct (positions_group_iff _ _ _ _ _ _ _ _ H) as [(P & ->)|(P & Q)].
  - left. split; [|cbn [obind concat]; now rewrite app_nil_r].
    exists z, (x :: data), blk, g. split; [reflexivity|]. split; [reflexivity|]. split; [exact Ei|]. split; [discriminate|].
    split; [exact Ep|]. split; [exact Eg|exact P].
  - right. split.
    + intros (z' & data' & blk' & g' & _ & C1 & C2 & _ & C3 & C4 & C5). injection C1 as <-. rewrite Ei in C2. injection C2 as <-.
      rewrite Ep in C3. injection C3 as <-. rewrite Eg in C4. injection C4 as <-. contradiction.
    + destruct Q as [-> |(-> & Q)]; [now left|]. right. split; [reflexivity|exact Q].
Qed.

Lemma blobs_positions rt chk infl bs ls :
  Forall2 (fun b l => s_blob rt chk infl (OF true true true) b = Ret l) bs ls ->
  (Forall (positions_blob rt infl) bs /\ Forall2 (fun b l => p_blob rt chk infl b = Ret l) bs (map (filter_map node_pos) ls)) \/
  (~ Forall (positions_blob rt infl) bs /\
     ((exists bs1 b bs2 ps, bs = bs1 ++ b :: bs2 /\ p_blob rt chk infl b = Panic /\ Forall2 (fun b l => p_blob rt chk infl b = Ret l) bs1 ps) \/
      exists ps, Forall2 (fun b l => p_blob rt chk infl b = Ret l) bs ps /\
        (length (concat ps) < length (filter_map node_pos (concat ls)))%nat)).
Proof.
  induction 1 as [|b l bs ls E _ IH]; [left; split; constructor|].
  destruct (positions_blob_iff _ _ _ _ _ E) as [(P & Q)|(P & [Q|(Q & N)])].
  - destruct IH as [(A & B)|(A & [(bs1 & b' & bs2 & ps & -> & B1 & B2)|(ps & B1 & B2)])].
    + left. split; constructor; assumption.
    + right. split; [intros C; inv C; contradiction|]. left. exists (b :: bs1), b', bs2, (filter_map node_pos l :: ps).
      split; [reflexivity|]. split; [exact B1|]. constructor; assumption.
    + right. split; [intros C; inv C; contradiction|]. right. exists (filter_map node_pos l :: ps).
      split; [constructor; assumption|]. cbn [concat]. rewrite filter_map_app, !app_length. lia.
  - right. split; [intros C; inv C; contradiction|]. left. exists [], b, bs, []. split; [reflexivity|]. split; [exact Q|constructor].
  - right. split; [intros C; inv C; contradiction|].
    assert (N1 : (0 < length (filter_map node_pos l))%nat) by (destruct (filter_map node_pos l); [contradiction|cbn; lia]).
    destruct IH as [(A & B)|(A & [(bs1 & b' & bs2 & ps & -> & B1 & B2)|(ps & B1 & B2)])].
    + right. exists ([] :: map (filter_map node_pos) ls). split; [constructor; assumption|]. cbn [concat app].
      rewrite filter_map_app, app_length, filter_map_concat. lia.
    + left. exists (b :: bs1), b', bs2, ([] :: ps). split; [reflexivity|]. split; [exact B1|constructor; assumption].
    + right. exists ([] :: ps). split; [constructor; assumption|]. cbn [concat app]. rewrite filter_map_app, app_length. lia.
Qed.

(** For every file the full reader reads to the end: the position reader's run, whatever
    it is, gives the same positions and the end exactly if all data blobs are as above. *)
Theorem C41_exact : forall rt chk inflate src os s bs r,
  Runs (s_next rt chk inflate) (s_new src) os (Ret s) -> Runs (next_blob rt) src bs r ->
  exists ps e, Runs (p_next rt chk inflate) (src, []) ps e /\
    (ps = filter_map node_pos os /\ e <> Panic <-> Forall (positions_blob rt inflate) bs).
Proof.
  intros rt chk infl src os s bs r H Rb. apply s_next_runs_inv in H as (r' & H & Er).
  cbn [s_new sr_filter sr_src sr_buf] in *.
  apply buffered_inv in H as (bs' & rb & R & [(ls & F & -> & ->)|(bs1 & b & bs2 & ls & _ & _ & _ & _ & ->)]); [|discriminate].
  destruct (Runs_det _ _ _ _ Rb _ _ R) as [-> ->]. destruct rb as [rb|]; [|discriminate]. cbn [app].
  destruct (blobs_positions _ _ _ _ _ F) as [(A & B)|(A & [(bs1 & b & bs2 & ps & -> & B1 & B2)|(ps & B1 & B2)])].
  - eexists _, _. split; [exact (runs_buffered rt _ _ _ _ R _ [] B)|]. cbn [app]. rewrite filter_map_concat.
    split; [auto|]. intros _. split; [reflexivity|discriminate].
  - eexists _, _. split; [exact (runs_buffered_panic rt _ _ _ _ _ _ R B1 _ [] B2)|]. split; [intros (_ & C); contradiction|intros C; contradiction].
  - eexists _, _. split; [exact (runs_buffered rt _ _ _ _ R _ [] B1)|]. cbn [app].
    split; [intros (C & _); rewrite C in B2; lia|intros C; contradiction].
Qed.
Print Assumptions C41_exact.

(** ** C71 *)

(** Both strings of every pair, or the roles of all members, are text. *)
Definition text_at (raw : string_table) (i : Z) : Prop := exists s, string_at raw i s.
Definition tags_text (raw : string_table) (ps : list (Z * Z)) : Prop :=
  Forall (fun p => text_at raw (fst p) /\ text_at raw (snd p)) ps.
Definition roles_text (raw : string_table) (ps : list (Z * Z * Z)) : Prop :=
  Forall (fun p => text_at raw (snd p)) ps.

Lemma text_not raw i : text_at raw i -> not_text raw i -> False.
Proof.
  intros (s & _ & V & E) (bs & _ & E' & N). apply N. exists s. split; [exact V|congruence].
Qed.
Lemma tags_kept raw ps ts : text_tags raw ps ts -> (tags_at raw ps ts <-> tags_text raw ps).
Proof.
  intros H. split.
  - intros T. unfold tags_at in T. clear H. induction T as [|p t ps ts (H1 & H2) _ IH]; constructor; [|exact IH].
    split; eexists; eassumption.
  - intros T. induction H as [|k v s t ps ts H1 H2 _ IH|k v ps ts H1 _ IH]; [constructor| |]; inv T.
    + constructor; [split; assumption|now apply IH].
    + exfalso. cbn [fst snd] in *. match goal with H : _ /\ _ |- _ => destruct H end.
      destruct H1 as [H1|H1]; (eapply text_not; [|exact H1]; assumption).
Qed.
Lemma members_kept raw ps ms : text_members raw ps ms ->
  (length ms <= length ps)%nat /\ (length ms = length ps <-> roles_text raw ps).
Proof.
  induction 1 as [|ty i r s ps ms H1 _ (L & IH)|ty i r ps ms H1 _ (L & IH)]; cbn [length].
  - split; [lia|]. split; [intros _; constructor|reflexivity].
  - split; [lia|]. split.
    + intros E. constructor; [now exists s|]. apply IH. lia.
    + intros T. inv T. f_equal. now apply IH.
  - split; [lia|]. split; [lia|]. intros T. inv T. exfalso. eapply text_not; eassumption.
Qed.

(** The Arc reader keeps all tags of an object, with both strings as they are, exactly if
    these strings are text, and all members of a relation exactly if their roles are. *)
Theorem C71_exact : forall rt data chk b raw ao, parse_block rt data = Some b -> pb_strings b = Some raw ->
  a_decode_block chk b = Ret ao ->
  per_group b (map a_view ao) (fun g l =>
    (forall d, pg_dense g = Some d -> exists runs, runs_of (dn_keys_vals d) runs /\
       Forall2 (fun ps o => tags_at raw ps (s_tags o) <-> tags_text raw ps) runs l) /\
    (pg_dense g = None -> pg_ways g <> [] ->
       Forall2 (fun p o => tags_at raw (combine (pw_keys p) (pw_vals p)) (s_tags o) <->
                           tags_text raw (combine (pw_keys p) (pw_vals p))) (pg_ways g) l) /\
    (pg_dense g = None -> pg_ways g = [] ->
       Forall2 (fun p o => (tags_at raw (combine (pr_keys p) (pr_vals p)) (s_tags o) <->
                            tags_text raw (combine (pr_keys p) (pr_vals p))) /\
         exists ids r, length ids = length (pr_memids p) /\ o = SRel r /\
           (length (sr_members r) = length (combine (combine (pr_types p) ids) (pr_roles p)) <->
            roles_text raw (combine (combine (pr_types p) ids) (pr_roles p)))) (pg_rels g) l)).
Proof.
  intros rt data chk b raw ao Hp Hr H. eapply per_group_mono; [|eapply C71_arc_partial; eassumption].
  intros g l (G1 & G2 & G3). split; [|split].
  - intros d Hd. destruct (G1 d Hd) as (runs & R & F & _). exists runs. split; [exact R|].
    eapply Forall2_mono; [|exact F]. intros ps o T. now apply tags_kept.
  - intros Hd Hw. eapply Forall2_mono; [|exact (G2 Hd Hw)]. intros p o (T & _). now apply tags_kept.
  - intros Hd Hw. eapply Forall2_mono; [|exact (G3 Hd Hw)]. intros p o (T & _ & ids & L & _ & r & -> & M).
    split; [now apply tags_kept|]. exists ids, r. split; [exact L|]. split; [reflexivity|]. now apply members_kept.
Qed.
Print Assumptions C71_exact.

(** A block with a string that is not text, accepted by the Arc reader: the way loses its
    tag (C71_arc_refuted); with text instead it does not. *)
Example C71_exact_ex : exists rt data b raw ao, parse_block rt data = Some b /\ pb_strings b = Some raw /\
  a_decode_block (plain true) b = Ret ao /\ Exists (fun bs => ~ is_text bs) raw /\ ao <> [].
Proof.
  assert (N : ~ is_text [255]).
  { intros (s & V & E). destruct s as [|c s]; [discriminate|]. apply (f_equal (utf8_decode)) in E.
    rewrite utf8_decode_encode in E by exact V. vm_compute in E. discriminate. }
  exists ex_rt, (ser_block (text_block [255] true)), (text_block [255] true). eexists _, _.
  split; [vm_compute; reflexivity|]. split; [reflexivity|]. split; [vm_compute; reflexivity|]. split; [|discriminate].
  repeat first [apply Exists_cons_hd; exact N|apply Exists_cons_tl].
Qed.
