(** Properties C39, C44-C46 and C62: visibility, uncompressed blobs, groups without
    tags, bad indexes and columns of different lengths. *)
From Coq Require Import String ZArith List Bool Lia.
From Verif Require Import Base Utf8 Timestamp Obj SpecObj PbWire PbMsg PbMsgFacts PbfRead SpecPbf SpecPbfRead SpecIter
  PbfFacts PbfExact PbfEncode PbRange PbfSound PbfFrame PropsPbfFile PropsPbfBlock.
Import ListNotations.
Open Scope Z_scope.

(** ** C39 *)

(** What holds: dense nodes altogether; ways and relations that carry the flag. *)
Theorem C39_visibility_partial : forall rt chk b raw os, decodes rt chk b raw os ->
  per_group b os (fun g l =>
    (forall d, pg_dense g = Some d -> forall i o, nth_error l i = Some o -> exists di, dn_info d = Some di /\
       (m_deleted (s_meta o) = true <-> nth_error (di_visible di) i = Some false)) /\
    (pg_dense g = None -> pg_ways g <> [] ->
       Forall2 (fun p o => exists inf, pw_info p = Some inf /\
          forall f, i_visible inf = Some f -> m_deleted (s_meta o) = negb f) (pg_ways g) l) /\
    (pg_dense g = None -> pg_ways g = [] ->
       Forall2 (fun p o => exists inf, pr_info p = Some inf /\
          forall f, i_visible inf = Some f -> m_deleted (s_meta o) = negb f) (pg_rels g) l)).
Proof.
  intros rt chk b raw os H. eapply per_group_mono; [|eapply decoded_groups; exact H].
  intros g l (G1 & G2 & G3). split; [|split].
  - intros d Hd. destruct (G1 d Hd) as (L & di & runs & Edi & _ & _ & R). intros i o Ho.
    destruct (R i o Ho) as (n & -> & [_ _ _ R4 _ _ _ _ R9]). destruct (dn_info d) as [x|].
    + subst di. exists x. split; [reflexivity|]. cbn [s_meta]. rewrite R9.
      destruct (nth_error (di_visible x) i) as [[|]|]; cbn; split; congruence.
    + exfalso. subst di. destruct R4 as (v & x & C & _). now destruct i.
  - intros Hd Hw. eapply Forall2_mono; [|exact (G2 Hd Hw)]. intros p o (w & -> & _ & M & _).
    destruct M as (inf & v & ts & cs & uid & sid & x & y & z & u & E1 & M). exists inf. split; [exact E1|]. apply M.
  - intros Hd Hw. eapply Forall2_mono; [|exact (G3 Hd Hw)]. intros p o (w & -> & _ & M & _).
    destruct M as (inf & v & ts & cs & uid & sid & x & y & z & u & E1 & M). exists inf. split; [exact E1|]. apply M.
Qed.
Print Assumptions C39_visibility_partial.
Example C39_example : exists os o, decodes ex_rt (plain true) ex_dense [[]; [117]; [195; 188]] os /\
  nth_error os 1 = Some o /\ m_deleted (s_meta o) = true.
Proof. destruct C35_example as (os & H & _ & E). eexists os, _. split; [exact H|]. split; [exact E|reflexivity]. Qed.

Definition no_flag (o : option info) : Prop := exists inf, o = Some inf /\ i_visible inf = None.

(** Every way or relation without the flag is deleted for the String reader, and stops
    the Arc reader. *)
Theorem C39_visibility_refuted : forall chk b g os, s_decode_block chk (OF true true true) b = Ret os ->
  pb_groups b = [g] -> pg_dense g = None ->
  (forall i p o, nth_error (pg_ways g) i = Some p -> no_flag (pw_info p) -> nth_error os i = Some o ->
     m_deleted (s_meta o) = true /\ a_decode_block chk b = Panic) /\
  (forall i p o, pg_ways g = [] -> nth_error (pg_rels g) i = Some p -> no_flag (pr_info p) -> nth_error os i = Some o ->
     m_deleted (s_meta o) = true /\ a_decode_block chk b = Panic).
Proof.
  intros chk b g os H Hg Hd. pose proof (arc_block_gen _ _ _ _ H Hg) as A.
  unfold s_decode_block in H. destruct (pb_strings b) as [raw|]; [|discriminate]. cbn [unwrap obind] in H. rewrite Hg in H.
  unfold s_decode_group in H. cbv zeta in H. cbn [f_nodes f_ways f_rels] in H. rewrite !andb_true_r, Hd in H.
  destruct (nonempty (pg_nodes g)); [discriminate|]. cbn [is_some] in H. unfold arc_ready in A. rewrite Hd in A. cbn [is_some orb] in A.
  split.
  - intros i p o Hp (inf & Ei & Ev) Ho. assert (N : nonempty (pg_ways g) = true) by (destruct (pg_ways g); [now destruct i|reflexivity]).
    rewrite N in *. cbn [andb orb negb] in A.
    assert (Fl : forallb (fun p => flagged (pw_info p)) (pg_ways g) = false).
    { apply not_true_is_false. intros C. rewrite forallb_forall in C. specialize (C p (nth_error_In _ _ Hp)).
      unfold flagged in C. rewrite Ei in C. cbn [unwrap_or] in C. rewrite Ev in C. discriminate. }
    rewrite Fl in A. cbn [orb] in A. split; [|exact A].
    destruct (s_strings raw) as [st|]; [|discriminate]. cbn [obind] in H. apply omapM_inv in H.
    destruct (Forall2_nth _ _ _ _ _ H Hp) as (o' & Ho' & E). rewrite Ho in Ho'. injection Ho' as <-.
    unfold s_decode_way in E. binds E. injection E as <-.
    match goal with E : obj_meta _ _ _ _ = Ret _ |- _ => apply obj_meta_inv in E as (ts & cs & uid & sid & name & v & dl & M) end.
    cbv zeta in M. rewrite Ei in M. cbn [unwrap_or] in M. rewrite Ev in M. destruct M as (_ & _ & _ & _ & _ & _ & M & ->).
    injection M as <-. reflexivity.
  - intros i p o Hw Hp (inf & Ei & Ev) Ho. rewrite Hw in *. cbn [nonempty] in *.
    assert (N : nonempty (pg_rels g) = true) by (destruct (pg_rels g); [now destruct i|reflexivity]).
    rewrite N in *. cbn [andb orb negb] in A.
    assert (Fl : forallb (fun p => rest_known chk p && flagged (pr_info p)) (pg_rels g) = false).
    { apply not_true_is_false. intros C. rewrite forallb_forall in C. specialize (C p (nth_error_In _ _ Hp)). apply andb_true_iff in C as (_ & C).
      unfold flagged in C. rewrite Ei in C. cbn [unwrap_or] in C. rewrite Ev in C. discriminate. }
    rewrite Fl in A. split; [|exact A].
    destruct (s_strings raw) as [st|]; [|discriminate]. cbn [obind] in H. apply omapM_inv in H.
    destruct (Forall2_nth _ _ _ _ _ H Hp) as (o' & Ho' & E). rewrite Ho in Ho'. injection Ho' as <-.
    unfold s_decode_rel in E. binds E. injection E as <-.
    match goal with E : obj_meta _ _ _ _ = Ret _ |- _ => apply obj_meta_inv in E as (ts & cs & uid & sid & name & v & dl & M) end.
    cbv zeta in M. rewrite Ei in M. cbn [unwrap_or] in M. rewrite Ev in M. destruct M as (_ & _ & _ & _ & _ & _ & M & ->).
    injection M as <-. reflexivity.
Qed.
Print Assumptions C39_visibility_refuted.
Example C39_refuted_example : exists os, message (way_block 1000 None 1000) /\
  s_decode_block (plain true) (OF true true true) (way_block 1000 None 1000) = Ret os /\ length os = 1%nat.
Proof.
  eexists. split; [apply message_way; unfold in_i32, in_i64; lia|]. split; [vm_compute; reflexivity|reflexivity].
Qed.

(** ** C44 *)

(** What holds: for the Arc reader. *)
Theorem C44_raw_blobs_partial : forall rt chk inflate raw z n b1 b2, inflate z = Some raw -> 0 <= n ->
  bl_raw b1 = Some raw -> bl_raw b2 = None -> bl_zlib b2 = Some z -> bl_raw_size b2 = Some n ->
  a_blob rt chk inflate b1 = a_blob rt chk inflate b2.
Proof.
  intros rt chk inflate raw z n b1 b2 Hz Hn H1 H2 H3 H4. unfold a_blob, a_blob_data.
  rewrite H1, H2, H3, H4. cbn [unwrap obind]. destruct (n <? 0) eqn:E; [lia|]. now rewrite Hz.
Qed.
Print Assumptions C44_raw_blobs_partial.
Example C44_example : exists os, a_blob ex_rt (plain true) (fun z => Some z) (Blob (Some (ser (pb_fields ex_dense))) None None None None) = Ret os /\
  length os = 2%nat.
Proof. eexists. split; [vm_compute; reflexivity|reflexivity]. Qed.

(** The String reader and the position reader panic on every raw blob with content,
    wherever they find it. *)
Theorem C44_raw_blobs_refuted : forall rt chk inflate f rest b raw, frame_ok f -> is_data f = true ->
  parse_blob rt (fr_data f) = Some b -> bl_raw b = Some raw -> raw <> [] ->
  Runs (s_next rt chk inflate) (s_new (frame_bytes f ++ rest)) [] Panic /\
  Runs (p_next rt chk inflate) (frame_bytes f ++ rest, []) [] Panic /\
  forall os z n, inflate z = Some raw ->
    s_blob rt chk inflate (OF true true true) (Blob None (Some n) (Some z) None None) = Ret os ->
    s_blob rt chk inflate (OF true true true) b <> Ret os.
Proof.
  intros rt chk inflate f rest b raw Hf Hd Hb Hr Hn.
  assert (Hs : forall flt, s_blob rt chk inflate flt b = Panic).
  { intros flt. unfold s_blob, s_blob_data. rewrite Hr. now destruct raw. }
  assert (Hp : p_blob rt chk inflate b = Panic).
  { unfold p_blob, s_blob_data. rewrite Hr. now destruct raw. }
  pose proof (next_blob_frame rt f rest Hf) as E. rewrite Hd, Hb in E. cbn [unwrap obind] in E.
  split; [|split].
  - unfold s_new. apply (s_next_runs _ _ _ _ _ _ _ Panic). apply Runs_panic. rewrite buf_next_eq, E. cbn [obind]. now rewrite Hs.
  - apply Runs_panic. change (buf_next rt (p_blob rt chk inflate) (frame_bytes f ++ rest, []) = Panic). rewrite buf_next_eq, E. cbn [obind]. now rewrite Hp.
  - intros os z n _ _. rewrite Hs. discriminate.
Qed.
Print Assumptions C44_raw_blobs_refuted.
Definition ex_raw_blob : blob := Blob (Some (ser (pb_fields ex_dense))) None None None None.
Definition ex_raw_frame : frame := Frame (lit "OSMData") None (ser_blob ex_raw_blob).
Example C44_refuted_example : frame_ok ex_raw_frame /\ is_data ex_raw_frame = true /\
  parse_blob ex_rt (fr_data ex_raw_frame) = Some ex_raw_blob /\
  exists os, s_blob ex_rt (plain true) (fun z => Some z) (OF true true true) (Blob None (Some 1) (Some (ser (pb_fields ex_dense))) None None) = Ret os /\
    length os = 2%nat.
Proof.
  split; [|split; [|split]].
  - split; [|split].
    + apply Forall_forall. intros x Hx. unfold scalar. vm_compute in Hx. intuition lia.
    + vm_compute. reflexivity.
    + vm_compute. reflexivity.
  - reflexivity.
  - vm_compute. reflexivity.
  - eexists. split; [vm_compute; reflexivity|reflexivity].
Qed.

(** ** C45 *)

Definition with_kv (d : dense_nodes) (kv : list Z) : dense_nodes :=
  DenseNodes (dn_id d) (dn_info d) (dn_lat d) (dn_lon d) kv.
Definition dense_group (d : dense_nodes) : pgroup := PGroup [] (Some d) [] [] [].
Definition with_groups (b : pblock) (gs : list pgroup) : pblock :=
  PBlock (pb_strings b) gs (pb_granularity b) (pb_lat_offset b) (pb_lon_offset b) (pb_date_granularity b).

(** The result with objects seen as fields. *)
Definition seen (o : outcome (list aobj)) : outcome (list sobj) :=
  match o with Ret l => Ret (map a_view l) | Panic => Panic end.

Lemma a_loop_zeros chk gran lato lono dg st d di : dn_keys_vals d = [] ->
  forall m k i s1 s2, last_id s1 = last_id s2 -> last_lat s1 = last_lat s2 -> last_lon s1 = last_lon s2 ->
    last_timestamp s1 = last_timestamp s2 -> last_changeset s1 = last_changeset s2 -> last_uid s1 = last_uid s2 ->
    last_user_sid s1 = last_user_sid s2 -> kv_left s2 = repeat 0 m -> (0 < k + m)%nat ->
  seen (dense_loop (a_dense_step chk gran lato lono dg st d di) m i s1) =
  seen (dense_loop (a_dense_step chk gran lato lono dg st (with_kv d (repeat 0 (k + m))) di) m i s2).
Proof.
  intros Hd. induction m as [|m IH]; intros k i s1 s2 E1 E2 E3 E4 E5 E6 E7 E8 Hk; [reflexivity|].
  cbn [dense_loop]. unfold a_dense_step at 1 3. cbn [with_kv dn_id dn_lat dn_lon dn_keys_vals dn_info].
  rewrite Hd, E1, E2, E3. replace (repeat 0 (k + S m)) with (0 :: repeat 0 (k + m)) by (rewrite <- plus_n_Sm; reflexivity).
  destruct (at_ (dn_id d) i) as [d0|]; [|reflexivity]. cbn [obind].
  destruct (arith_i64 chk (d0 + last_id s2)) as [id|]; [|reflexivity]. cbn [obind].
  destruct (dense_raw chk (dn_lat d) i (last_lat s2)) as [rla|]; [|reflexivity]. cbn [obind].
  destruct (dense_raw chk (dn_lon d) i (last_lon s2)) as [rlo|]; [|reflexivity]. cbn [obind].
  destruct (dense_internal chk gran lato rla) as [la|]; [|reflexivity]. cbn [obind].
  destruct (dense_internal chk gran lono rlo) as [lo|]; [|reflexivity]. cbn [obind].
  rewrite E8. cbn [repeat take_tags Z.eqb obind]. unfold a_tags_at at 1. cbn [omapM obind filter_map].
  replace (dense_meta chk dg (fun i0 => do o <- at_z st i0; unwrap o) di i s1 id) with
          (dense_meta chk dg (fun i0 => do o <- at_z st i0; unwrap o) di i s2 id)
    by (unfold dense_meta; now rewrite E4, E5, E6, E7).
  destruct (dense_meta _ _ _ _ _ _ _) as [[m0 [[[ts cs] uid] sid]]|]; [|reflexivity]. cbn [obind].
  specialize (IH (S k) (S i) (DS id rla rlo ts cs uid sid []) (DS id rla rlo ts cs uid sid (repeat 0 m))
    eq_refl eq_refl eq_refl eq_refl eq_refl eq_refl eq_refl eq_refl ltac:(lia)).
  replace (repeat 0 (S k + m)) with (0 :: repeat 0 (k + m)) in IH by reflexivity.
  destruct (dense_loop _ m (S i) (DS id rla rlo ts cs uid sid [])) as [l1|];
    destruct (dense_loop _ m (S i) (DS id rla rlo ts cs uid sid (repeat 0 m))) as [l2|]; cbn [obind seen map] in *;
    try discriminate; [|reflexivity].
  injection IH as IH. rewrite IH. reflexivity.
Qed.

(** What holds, for the Arc reader: leaving the column out is the same as giving every
    node an empty run; and the nodes have no tags. *)
Theorem C45_tagless_dense_partial : forall chk b d, dn_keys_vals d = [] ->
  seen (a_decode_block chk (with_groups b [dense_group d])) =
  seen (a_decode_block chk (with_groups b [dense_group (with_kv d (column (repeat [] (length (dn_id d)))))])) /\
  forall os, a_decode_block chk (with_groups b [dense_group d]) = Ret os ->
    length os = length (dn_id d) /\ Forall (fun o => s_tags (a_view o) = []) os.
Proof.
  intros chk b d Hd. assert (Hc : forall n, column (repeat [] n) = repeat 0 n).
  { induction n as [|n IHn]; [reflexivity|]. cbn [repeat column flat_map]. unfold column in IHn. now rewrite IHn. }
  split.
  - rewrite Hc. unfold a_decode_block, with_groups, a_decode_group, dense_group, granularity, lat_offset, lon_offset, date_granularity.
    cbn [omapM pg_nodes pg_dense pg_ways pg_rels nonempty is_some unwrap_or pb_groups pb_strings pb_granularity pb_lat_offset pb_lon_offset pb_date_granularity]. cbv zeta.
    unfold a_decode_dense. cbn [with_kv dn_id dn_info dn_keys_vals].
    destruct (dn_id d) as [|i0 ids] eqn:Ei; [reflexivity|].
    match goal with |- context [dense_loop (a_dense_step _ ?g ?la ?lo ?dg ?st d ?di)] =>
      pose proof (a_loop_zeros chk g la lo dg st d di Hd (length (i0 :: ids)) 0 0 (ds0 []) (ds0 (repeat 0 (length (i0 :: ids))))
        eq_refl eq_refl eq_refl eq_refl eq_refl eq_refl eq_refl eq_refl ltac:(cbn; lia)) as E end.
    rewrite Hd. cbn [plus] in E. unfold with_kv in E. unfold with_kv.
    revert E. generalize (length (i0 :: ids)). intros n E.
    destruct (dense_loop _ n 0 (ds0 [])) as [l1|]; destruct (dense_loop _ n 0 (ds0 (repeat 0 n))) as [l2|]; cbn [seen obind] in *;
      try discriminate; [|reflexivity]. injection E as E. cbn [concat]. now rewrite !app_nil_r, E.
  - intros os H. unfold a_decode_block, with_groups, a_decode_group, dense_group in H. cbv zeta in H.
    cbn [omapM pg_nodes pg_dense pg_ways pg_rels nonempty is_some unwrap_or pb_groups] in H. unfold a_decode_dense in H.
    match type of H with context [dense_loop ?f ?n ?i ?s] => destruct (dense_loop f n i s) as [l|] eqn:E; [|discriminate] end.
    cbn [obind concat] in H. rewrite app_nil_r in H. injection H as <-. split; [eapply dense_loop_len; exact E|].
    revert E. generalize (length (dn_id d)), 0%nat, (ds0 (dn_keys_vals d)). intros n i s E. revert i s l E.
    induction n as [|n IH]; intros i s l E; cbn [dense_loop] in E; [injection E as <-; constructor|].
    destruct (a_dense_step _ _ _ _ _ _ _ _ i s) as [[o s']|] eqn:Es; [|discriminate]. cbn [obind] in E.
    destruct (dense_loop _ n (S i) s') as [l'|] eqn:El; [|discriminate]. cbn [obind] in E. injection E as <-.
    constructor; [|eapply IH; exact El]. unfold a_dense_step in Es. rewrite Hd in Es. binds Es. injection Es as <- <-.
    reflexivity.
Qed.
Print Assumptions C45_tagless_dense_partial.

(** The String reader panics on every such group that is not empty; the position
    reader does not look at the column. *)
Theorem C45_tagless_dense_refuted : forall chk flt b d, f_nodes flt = true -> dn_id d <> [] -> dn_keys_vals d = [] ->
  s_decode_block chk flt (with_groups b [dense_group d]) = Panic /\
  forall kv, p_decode_block chk (with_groups b [dense_group d]) = p_decode_block chk (with_groups b [dense_group (with_kv d kv)]).
Proof.
  intros chk flt b d Hf Hi Hk. split; [|reflexivity].
  unfold s_decode_block, with_groups, s_decode_group, dense_group. cbn [pb_strings pb_groups pg_nodes pg_dense nonempty is_some unwrap_or]. cbv zeta.
  destruct (pb_strings b) as [raw|]; [|reflexivity]. cbn [unwrap obind]. rewrite Hf. cbn [andb].
  destruct (s_strings raw) as [st|]; [|reflexivity]. cbn [obind].
  destruct (s_decode_dense _ _ _ _ _ st d) as [os|] eqn:E; [|reflexivity].
  now apply s_kv_nonempty in E.
Qed.
Print Assumptions C45_tagless_dense_refuted.
Example C45_example : let d := with_kv (dense_of [1; 1] [5; 5] [6; 6] [10; 1]) [] in
  dn_id d <> [] /\ dn_keys_vals d = [] /\
  message (with_groups (dense_block 100 1000 [] [] [] []) [dense_group d]) /\
  exists os, a_decode_block (plain true) (with_groups (dense_block 100 1000 [] [] [] []) [dense_group d]) = Ret os /\ length os = 2%nat.
Proof.
  cbv zeta. split; [discriminate|]. split; [reflexivity|]. split.
  - split; [|reflexivity]. split; [|cbn; repeat split; unfold in_i32; lia].
    constructor; [|constructor]. split; [constructor|]. split; [|repeat split; constructor].
    cbn. repeat split; repeat constructor; unfold in_i32, in_i64; lia.
  - eexists. split; [vm_compute; reflexivity|reflexivity].
Qed.

(** ** C46 *)

(** Not an index of the table. *)
Definition no_index (raw : string_table) (i : Z) : Prop := i < 0 \/ Z.of_nat (length raw) <= i.

(** Something in the message points outside the string table, or a sum leaves its
    range.  For sums that wrap around silently when the build does not check for
    overflow, [chk] says that it does; the raw coordinates are checked in every
    build. *)
Inductive bad_dense (chk : bool) (raw : string_table) (d : dense_nodes) (i : nat) : Prop :=
| Bad_id : chk = true -> ~ in_i64 (sum_to i (dn_id d)) -> bad_dense chk raw d i
| Bad_lat : ~ in_i32 (sum_to i (dn_lat d)) -> bad_dense chk raw d i
| Bad_lon : ~ in_i32 (sum_to i (dn_lon d)) -> bad_dense chk raw d i
| Bad_user di : dn_info d = Some di -> (chk = true \/ in_i32 (sum_to i (di_user_sid di))) ->
    no_index raw (sum_to i (di_user_sid di)) -> bad_dense chk raw d i
| Bad_tag runs rest ps k v : dn_keys_vals d = column runs ++ rest -> Forall good_run runs ->
    nth_error runs i = Some ps -> In (k, v) ps -> no_index raw k \/ no_index raw v -> bad_dense chk raw d i.
Definition bad_info (raw : string_table) (o : option info) : Prop :=
  exists inf sid, o = Some inf /\ i_user_sid inf = Some sid /\ no_index raw sid.
Definition bad_tags (raw : string_table) (keys vals : list Z) : Prop :=
  exists i k v, nth_error keys i = Some k /\ nth_error vals i = Some v /\ (no_index raw k \/ no_index raw v).
Definition bad_sums (chk : bool) (l : list Z) (n : nat) : Prop :=
  chk = true /\ exists i, (i < n)%nat /\ ~ in_i64 (sum_to i l).
Definition bad_way (chk : bool) (raw : string_table) (p : pway) : Prop :=
  bad_info raw (pw_info p) \/ bad_tags raw (pw_keys p) (pw_vals p) \/ bad_sums chk (pw_refs p) (length (pw_refs p)).
Definition members_of (p : prel) : nat :=
  Nat.min (length (pr_types p)) (Nat.min (length (pr_memids p)) (length (pr_roles p))).
Definition bad_rel (chk : bool) (raw : string_table) (p : prel) : Prop :=
  bad_info raw (pr_info p) \/ bad_tags raw (pr_keys p) (pr_vals p) \/ bad_sums chk (pr_memids p) (members_of p) \/
  exists i r, (i < members_of p)%nat /\ nth_error (pr_roles p) i = Some r /\ no_index raw r.

Inductive bad_group (chk : bool) (raw : string_table) (g : pgroup) : Prop :=
| Bad_dense d i : pg_dense g = Some d -> (i < length (dn_id d))%nat -> bad_dense chk raw d i -> bad_group chk raw g
| Bad_way p : pg_dense g = None -> In p (pg_ways g) -> bad_way chk raw p -> bad_group chk raw g
| Bad_rel p : pg_dense g = None -> pg_ways g = [] -> In p (pg_rels g) -> bad_rel chk raw p -> bad_group chk raw g.

Lemma string_index raw i s : string_at raw i s -> ~ no_index raw i.
Proof.
  intros (H1 & _ & H2) [C|C]; [lia|]. assert (nth_error raw (Z.to_nat i) <> None) as N by congruence.
  apply nth_error_Some in N. lia.
Qed.

Lemma runs_unique : forall i runs runs' rest rest' ps ps', Forall good_run runs -> Forall good_run runs' ->
  column runs ++ rest = column runs' ++ rest' -> nth_error runs i = Some ps -> nth_error runs' i = Some ps' -> ps = ps'.
Proof.
  induction i as [|i IH]; intros [|r runs] [|r' runs'] rest rest' ps ps' G G' E N N'; try discriminate;
    inv G; inv G'; cbn [nth_error] in N, N'; unfold column in E; cbn [flat_map] in E; rewrite <- !app_assoc in E.
  - injection N as <-. injection N' as <-.
    pose proof (take_tags_run r (flat_map run runs ++ rest) ltac:(assumption)) as T1.
    pose proof (take_tags_run r' (flat_map run runs' ++ rest') ltac:(assumption)) as T2.
    rewrite E in T1. rewrite T1 in T2. now injection T2.
  - pose proof (take_tags_run r (flat_map run runs ++ rest) ltac:(assumption)) as T1.
    pose proof (take_tags_run r' (flat_map run runs' ++ rest') ltac:(assumption)) as T2.
    rewrite E in T1. rewrite T1 in T2. injection T2 as _ E'.
    eapply (IH runs runs' rest rest'); eassumption.
Qed.

Lemma tags_no_bad raw ps ts k v : tags_at raw ps ts -> In (k, v) ps -> no_index raw k \/ no_index raw v -> False.
Proof.
  intros H. induction H as [|p t ps ts (H1 & H2) _ IH]; intros Hin Hb; [exact Hin|]. destruct Hin as [->|Hin]; [|now apply IH].
  cbn [fst snd] in *. destruct Hb as [C|C]; [exact (string_index _ _ _ H1 C)|exact (string_index _ _ _ H2 C)].
Qed.
Lemma columns_no_bad raw keys vals ts : tags_at raw (combine keys vals) ts -> bad_tags raw keys vals -> False.
Proof.
  intros H (i & k & v & Hk & Hv & B). eapply tags_no_bad; [exact H| |exact B].
  clear -Hk Hv. revert vals i Hk Hv. induction keys as [|a keys IH]; intros [|c vals] [|i] Hk Hv; try discriminate; cbn [combine nth_error] in *.
  - injection Hk as <-. injection Hv as <-. now left.
  - right. now apply (IH vals i).
Qed.
Lemma info_no_bad raw o m : meta_read raw o m -> bad_info raw o -> False.
Proof.
  intros (inf & v & ts & cs & uid & sid & x & y & z & u & E1 & _ & _ & _ & _ & _ & _ & _ & _ & _ & _ & _ & E2 & _ & E3 & _) (inf' & sid' & E4 & E5 & B).
  rewrite E1 in E4. injection E4 as <-. rewrite E2 in E5. injection E5 as <-. eapply string_index; eassumption.
Qed.

Lemma nth_lt {A} (l : list A) i : (i < length l)%nat -> exists x, nth_error l i = Some x.
Proof. intros H. apply nth_error_Some in H. destruct (nth_error l i) as [x|]; [now exists x|contradiction]. Qed.

Lemma group_no_bad chk b raw g l : group_read chk b raw g l -> bad_group chk raw g -> False.
Proof.
  intros (G1 & G2 & G3) [d i Hd Hi B|p Hd Hp B|p Hd Hw Hp B].
  - destruct (G1 d Hd) as (L & di & runs & Edi & (Gr & Hk) & Lr & R). rewrite <- L in Hi.
    destruct (nth_lt _ _ Hi) as (o & Ho). destruct (R i o Ho) as (n & -> & [R1 R2 R3 _ _ _ _ R8 _]).
    destruct B as [Hc B|B|B|di' Ei Hc B|runs' rest ps k v Ek Gk Hps Hin B].
    + apply B. destruct R1 as (I & _ & E). now rewrite <- (E Hc).
    + destruct R2 as (la & lo & _ & (P & _) & _). contradiction.
    + destruct R2 as (la & lo & _ & _ & (P & _)). contradiction.
    + rewrite Ei in Edi. subst di. destruct R8 as (u & sid & _ & (I & (q & E) & E') & S).
      assert (Es : sid = sum_to i (di_user_sid di')).
      { destruct Hc as [Hc|Hc]; [now apply E'|]. eapply i32_unique; [exact Hc|exact I|exact E]. }
      rewrite <- Es in B.
      eapply string_index; eassumption.
    + destruct R3 as (ps' & Hps' & T). destruct Hk as [(rest' & Hk)|(Hk & Hall)].
      * rewrite Hk in Ek. assert (ps = ps') as <- by (eapply (runs_unique i runs' runs rest rest'); try eassumption; now symmetry).
        eapply tags_no_bad; eassumption.
      * rewrite Hk in Ek. destruct runs' as [|r0 runs']; [now destruct i|]. exfalso. unfold column in Ek. cbn [flat_map] in Ek.
        apply (f_equal (@length Z)) in Ek. unfold run in Ek. rewrite !app_length in Ek. cbn [length] in Ek. lia.
  - assert (Hw : pg_ways g <> []) by (destruct (pg_ways g); [contradiction|discriminate]).
    destruct (In_nth_error _ _ Hp) as (i & Hi). destruct (Forall2_nth _ _ _ _ _ (G2 Hd Hw) Hi) as (o & _ & w & -> & _ & M & T & L & S).
    destruct B as [B|[B|(Hc & j & Hj & B)]]; [eapply info_no_bad; eassumption|eapply columns_no_bad; eassumption|].
    rewrite <- L in Hj. destruct (nth_lt _ _ Hj) as (x & Hx). destruct (S j x Hx) as (I & _ & E). apply B. now rewrite <- (E Hc).
  - destruct (In_nth_error _ _ Hp) as (i & Hi). destruct (Forall2_nth _ _ _ _ _ (G3 Hd Hw) Hi) as (o & _ & r & -> & _ & M & T & L & S).
    destruct B as [B|[B|[(Hc & j & Hj & B)|(j & x & Hj & Hx & B)]]]; [eapply info_no_bad; eassumption|eapply columns_no_bad; eassumption| |];
      unfold members_of in Hj; rewrite <- L in Hj; destruct (nth_lt _ _ Hj) as (m & Hm); destruct (S j m Hm) as (_ & (I & _ & E) & x' & Hx' & St).
    + apply B. now rewrite <- (E Hc).
    + rewrite Hx in Hx'. injection Hx' as <-. eapply string_index; eassumption.
Qed.

Theorem C46_bad_indexes_stop : forall rt (chk : build) data b raw g, parse_block rt data = Some b -> pb_strings b = Some raw ->
  In g (pb_groups b) -> bad_group chk raw g ->
  s_decode_block chk (OF true true true) b = Panic /\ (text_table raw -> a_decode_block chk b = Panic).
Proof.
  intros rt chk data b raw g Hp Hr Hg B.
  assert (N : forall os, ~ decodes rt chk b raw os).
  { intros os H. apply decoded_groups in H as (ls & _ & F). destruct (In_nth_error _ _ Hg) as (i & Hi).
    destruct (Forall2_nth _ _ _ _ _ F Hi) as (l & _ & G). eapply group_no_bad; eassumption. }
  split.
  - destruct (s_decode_block chk (OF true true true) b) as [os|] eqn:E; [|reflexivity]. exfalso. apply (N os).
    split; [now exists data|]. split; [exact Hr|]. now left.
  - intros Ht. destruct (a_decode_block chk b) as [ao|] eqn:E; [|reflexivity]. exfalso. apply (N (map a_view ao)).
    split; [now exists data|]. split; [exact Hr|]. right. split; [exact Ht|]. now exists ao.
Qed.
Print Assumptions C46_bad_indexes_stop.

(** A user index one past the table; a tag value likewise; a longitude out of range; a
    role. *)
Example C46_example :
  (exists data b raw g, parse_block ex_rt data = Some b /\ pb_strings b = Some raw /\ pb_groups b = [g] /\ text_table raw /\
     bad_group false raw g /\ b = PBlock (Some [[]; [117]])
       [PGroup [] (Some (DenseNodes [1; 1] (Some (DenseInfo [1; 1] [0; 0] [0; 0] [0; 0] [1; 0] [])) [0; 0] [0; 0] [0; 1; 2; 0])) [] [] []] None None None None) /\
  (exists data b raw g, parse_block ex_rt data = Some b /\ pb_strings b = Some raw /\ pb_groups b = [g] /\
     bad_group true raw g /\ b = rel_block (Some true) [2] [5] [0]).
Proof.
  split.
  - do 4 eexists. split; [|split; [|split; [|split; [|split; [|reflexivity]]]]]; [| | | |].
    + match goal with |- parse_block _ _ = Some ?b => instantiate (1 := ser (pb_fields b)) end. vm_compute. reflexivity.
    + reflexivity.
    + reflexivity.
    + constructor; [exists []; split; [constructor|reflexivity]|]. constructor; [|constructor]. exists [117]. split; [|reflexivity].
      constructor; [unfold scalar; lia|constructor].
    + eapply (Bad_dense _ _ _ _ 1); [reflexivity|cbn; lia|]. eapply (Bad_tag _ _ _ _ [[]; [(1, 2)]] []); [reflexivity| |reflexivity|now left|].
      * constructor; [constructor|]. constructor; [|constructor]. constructor; [discriminate|constructor].
      * right. right. cbn. lia.
  - do 4 eexists. split; [|split; [|split; [|split; [|reflexivity]]]].
    + match goal with |- parse_block _ _ = Some ?b => instantiate (1 := ser (pb_fields b)) end. vm_compute. reflexivity.
    + reflexivity.
    + reflexivity.
    + eapply Bad_rel; [reflexivity|reflexivity|now left|]. right. right. right. exists 0%nat, 2. split; [cbn; lia|]. split; [reflexivity|].
      right. cbn. lia.
Qed.

(** ** C62: columns of different lengths *)

(** What holds: a way or relation with more keys than values, or more values than keys,
    stops the String reader. *)
Theorem C62_columns_partial : forall chk b g, pb_groups b = [g] -> pg_dense g = None ->
  (exists p, In p (pg_ways g) /\ length (pw_keys p) <> length (pw_vals p)) \/
  (pg_ways g = [] /\ exists p, In p (pg_rels g) /\ length (pr_keys p) <> length (pr_vals p)) ->
  s_decode_block chk (OF true true true) b = Panic.
Proof.
  intros chk b g Hg Hd H. unfold s_decode_block. destruct (pb_strings b) as [raw|]; [|reflexivity]. cbn [unwrap obind].
  rewrite Hg. unfold s_decode_group. cbv zeta. cbn [f_nodes f_ways f_rels]. rewrite !andb_true_r, Hd. cbn [is_some].
  destruct (nonempty (pg_nodes g)); [reflexivity|].
  assert (A : forall st keys vals, length keys <> length vals -> s_tags_of st keys vals = Panic).
  { intros st keys vals N. unfold s_tags_of. now rewrite (proj2 (Nat.eqb_neq _ _) N). }
  destruct H as [(p & Hp & N)|(Hw & p & Hp & N)].
  - assert (nonempty (pg_ways g) = true) as -> by (destruct (pg_ways g); [contradiction|reflexivity]).
    destruct (s_strings raw) as [st|]; [|reflexivity]. cbn [obind].
    destruct (omapM _ _) as [l|] eqn:E; [|reflexivity]. exfalso. apply omapM_inv in E.
    destruct (In_nth_error _ _ Hp) as (i & Hi). destruct (Forall2_nth _ _ _ _ _ E Hi) as (o & _ & Eo).
    unfold s_decode_way in Eo. rewrite (A _ _ _ N) in Eo. destruct (unwrap (pw_id p)); discriminate.
  - rewrite Hw. cbn [nonempty]. assert (nonempty (pg_rels g) = true) as -> by (destruct (pg_rels g); [contradiction|reflexivity]).
    destruct (s_strings raw) as [st|]; [|reflexivity]. cbn [obind].
    destruct (omapM _ _) as [l|] eqn:E; [|reflexivity]. exfalso. apply omapM_inv in E.
    destruct (In_nth_error _ _ Hp) as (i & Hi). destruct (Forall2_nth _ _ _ _ _ E Hi) as (o & _ & Eo).
    unfold s_decode_rel in Eo. rewrite (A _ _ _ N) in Eo. discriminate.
Qed.
Print Assumptions C62_columns_partial.

(** Member columns: elements without a partner are dropped, by both readers, without
    notice.  [n] members with all of type, id and role, and [m] more of which the id is
    missing. *)
Theorem C62_member_columns_refuted : forall chk n m, let b := rel_block (Some true) (repeat 1 (n + m)) (repeat 0 n) (repeat 0 (n + m)) in
  message b /\ exists r, s_decode_block chk (OF true true true) b = Ret [SRel r] /\
    a_decode_block chk b = Ret [arc_of (SRel r)] /\ length (sr_members r) = n.
Proof.
  intros chk n m b.
  assert (Hs : sum_refs chk (repeat 0 n) = Ret (repeat 0 n)).
  { destruct n as [|n]; [reflexivity|]. cbn [repeat sum_refs].
    assert (S0 : sum_refs_from chk 0 (repeat 0 n) = Ret (repeat 0 n)); [|now rewrite S0].
    induction n as [|n IH]; [reflexivity|]. cbn [repeat sum_refs_from]. rewrite arith_i64_ok by (unfold in_i64; lia). cbn [obind].
    change (0 + 0) with 0. now rewrite IH. }
  assert (Hz : zip_members (at_z [[]; [117]]) (repeat 0 (n + m)) (repeat 0 n) (repeat 1 (n + m)) = Ret (repeat (TNode, 0, [117]) n)).
  { clear. induction n as [|n IH]; [destruct m; reflexivity|]. cbn [plus repeat zip_members]. cbn [member_type Z.eqb obind at_z Z.ltb].
    change (at_z [[]; [117]] 1) with (Ret [117] : outcome str). cbn [obind]. now rewrite IH. }
  split.
  - split; [|reflexivity]. split; [|repeat split]. constructor; [|constructor]. split; [constructor|]. split; [exact I|]. split; [constructor|].
    split; [|constructor]. constructor; [|constructor]. split; [cbn; unfold in_i64; lia|]. split; [repeat constructor; lia|]. split; [repeat constructor; lia|].
    split; [cbn; unfold ok_info; cbn; unfold in_i64, in_i32, in_u32; lia|].
    split; [apply Forall_forall; intros x Hx; apply repeat_spec in Hx; subst; unfold in_i32; lia|].
    split; apply Forall_forall; intros x Hx; apply repeat_spec in Hx; subst; unfold in_i64, in_i32; lia.
  - exists (SR (Meta 8 (Some 1) false (Some 3) (Some (EpochNumber 5)) (Some 4) (Some [117])) [([117], [])] (repeat (TNode, 0, [117]) n)).
    assert (E : s_decode_block chk (OF true true true) b =
       Ret [SRel (SR (Meta 8 (Some 1) false (Some 3) (Some (EpochNumber 5)) (Some 4) (Some [117])) [([117], [])] (repeat (TNode, 0, [117]) n))]).
    { unfold b, rel_block, s_decode_block, s_decode_group. cbn [pb_strings pb_groups unwrap obind pg_nodes pg_dense pg_ways pg_rels nonempty is_some andb f_rels f_nodes f_ways]. cbv zeta.
      change (s_strings [[]; [117]]) with (Ret [[]; [117]] : outcome (list str)). cbn [obind omapM].
      unfold s_decode_rel. cbn [pr_keys pr_vals pr_memids pr_types pr_roles pr_info pr_id]. rewrite Hs. cbn [obind].
      rewrite Hz. cbn [obind]. rewrite rest_type_known by (apply Forall_forall; intros x Hx; apply repeat_spec in Hx; subst; lia).
      cbn [obind]. change (s_tags_of [[]; [117]] [1] [0]) with (Ret [([117], [])] : outcome (list (str * str))). reflexivity. }
    split; [exact E|]. split; [|cbn; apply repeat_length].
    apply (arc_block _ _ _ _ E eq_refl). unfold arc_ready, rest_known. cbn [pg_dense pg_ways pg_rels is_some nonempty andb orb negb forallb pr_types pr_memids pr_roles].
    rewrite rest_type_known by (apply Forall_forall; intros x Hx; apply repeat_spec in Hx; subst; lia). reflexivity.
Qed.
Print Assumptions C62_member_columns_refuted.
Example C62_example : members_of (PRel (Some 8) [] [] None (repeat 1 (2 + 3)) (repeat 0 2) (repeat 0 (2 + 3))) = 2%nat /\
  exists p g, pg_ways g = [p] /\ pg_dense g = None /\ length (pw_keys p) <> length (pw_vals p).
Proof.
  split; [reflexivity|]. exists (PWay (Some 7) [1; 1] [0] None []), (PGroup [] None [PWay (Some 7) [1; 1] [0] None []] [] []).
  split; [reflexivity|]. split; [reflexivity|]. cbn. lia.
Qed.
