(** Blocks that follow the format, within the supported limits, decode to the
    objects they mean. *)
From Coq Require Import String ZArith List Bool Lia.
From Verif Require Import Base Utf8 Timestamp Obj PbWire PbMsg PbfRead SpecPbf PbfFacts.
Import ListNotations.
Open Scope Z_scope.

Lemma Forall2_mono {A B} (P Q : A -> B -> Prop) l l' : (forall a b, P a b -> Q a b) ->
  Forall2 P l l' -> Forall2 Q l l'.
Proof. intros H F. induction F; constructor; auto. Qed.

Lemma nth_lt {A} (l : list A) i : (i < length l)%nat -> exists x, nth_error l i = Some x.
Proof.
  intros H. destruct (nth_error l i) as [x|] eqn:E; [now exists x|]. apply nth_error_None in E. lia.
Qed.

Lemma sum_to_snoc l i x : nth_error l i = Some x -> sum_to i l = x + total (firstn i l).
Proof. intros H. unfold sum_to. rewrite (total_snoc _ _ _ H). lia. Qed.

Lemma column_skip runs i ps : nth_error runs i = Some ps -> column (skipn i runs) = run ps ++ column (skipn (S i) runs).
Proof.
  revert i; induction runs as [|r runs IH]; intros [|i] H; cbn [nth_error skipn] in *; try easy.
  - now injection H as ->.
  - now apply IH.
Qed.

Lemma skipn_nth {A} (l : list A) i x : nth_error l i = Some x -> skipn i l = x :: skipn (S i) l.
Proof.
  revert i; induction l as [|a l IH]; intros [|i] H; cbn [nth_error skipn] in *; try easy.
  - now injection H as ->.
  - now apply IH.
Qed.

Lemma dense_internal_ok chk gran off raw x k o : gran = 100 * k -> off = 100 * o -> in_i32 o ->
  coord_is gran off raw x -> in_i32 x -> - 2^31 * 100 <= gran * raw < 2^31 * 100 ->
  dense_internal chk gran off raw = Ret x.
Proof.
  intros -> -> Ho Hc Hx Hs. unfold coord_is, dense_internal, COORD_PRECISION_NANOS in *.
  replace (Z.quot (100 * k) 100) with k by (rewrite Z.mul_comm; symmetry; apply Z.quot_mul; lia).
  replace (Z.quot (100 * o) 100) with o by (rewrite Z.mul_comm; symmetry; apply Z.quot_mul; lia).
  rewrite (arith_i32_ok _ (raw * k)) by (unfold in_i32; nia). cbn [obind].
  rewrite (as_i32_id o) by easy.
  replace (raw * k + o) with x by nia. now apply arith_i32_ok.
Qed.

Lemma dense_raw_ok chk col i d : nth_error col i = Some d -> in_i32 (sum_to i col) ->
  dense_raw chk col i (total (firstn i col)) = Ret (sum_to i col).
Proof.
  intros E H. unfold dense_raw. apply at_inv in E as E'. rewrite E'. cbn [obind].
  rewrite <- (sum_to_snoc _ _ _ E). rewrite arith_i64_ok by (unfold in_i32, in_i64 in *; lia). cbn [obind].
  unfold try_i32. now apply in_i32b_iff in H as ->.
Qed.

Definition state_at (d : dense_nodes) (di : dense_info) (runs : list (list (Z * Z))) (i : nat) : dense_state :=
  DS (total (firstn i (dn_id d))) (total (firstn i (dn_lat d))) (total (firstn i (dn_lon d)))
     (total (firstn i (di_timestamp di))) (total (firstn i (di_changeset di)))
     (total (firstn i (di_uid di))) (total (firstn i (di_user_sid di))) (column (skipn i runs)).

Lemma s_step_exact chk b raw st d di runs i n :
  params_supported b -> s_strings raw = Ret st ->
  Forall good_run runs ->
  (i < length (dn_id d))%nat -> (i < length (dn_lat d))%nat -> (i < length (dn_lon d))%nat ->
  (i < length (di_timestamp di))%nat -> (i < length (di_changeset di))%nat ->
  (i < length (di_uid di))%nat -> (i < length (di_user_sid di))%nat ->
  0 <= total (firstn i (di_timestamp di)) < 2^31 ->
  dense_node_is b raw d di runs i n -> node_supported b d di i n ->
  s_dense_step chk (gran_of b) (lat_off_of b) (lon_off_of b) 1 st d di i (state_at d di runs i)
  = Ret (SNode n, state_at d di runs (S i)) /\ 0 <= total (firstn (S i) (di_timestamp di)) < 2^31.
Proof.
  intros [(kg & Hg) (ka & Ha & Ha') (ko & Ho & Ho') Hd] Hs Hr L1 L2 L3 L4 L5 L6 L7 T
    [N1 (la & lo & N2 & N3 & N4) (ps & N5 & N6) (v & N7 & N8) (t & N9 & N10) N11 N12 (u & N13 & N14) N15]
    [[M1 (v' & M2 & M3) _ (c & M6 & M7) (u' & M8 & M9)] (t' & P1 & s & P1' & P2) (u'' & P3 & P4) P5
      (p & P6 & P7 & P8) (P9 & P10) (P11 & P12)].
  apply nth_lt in L1 as (d1 & L1), L2 as (d2 & L2), L3 as (d3 & L3), L4 as (d4 & L4), L5 as (d5 & L5),
    L6 as (d6 & L6), L7 as (d7 & L7).
  rewrite N2 in P6. injection P6 as <-. cbn [fst snd] in *.
  rewrite N9 in P1. injection P1 as <-. injection P1' as ->.
  rewrite N8 in M2. injection M2 as <-. rewrite N11 in M6. injection M6 as <-.
  rewrite N12 in M8, P3. injection M8 as <-. injection P3 as <-.
  rewrite Hd in N10. assert (Es : s = sum_to i (di_timestamp di)) by lia. subst s. clear N10 Hd.
  assert (T' : 0 <= total (firstn (S i) (di_timestamp di)) < 2^31) by exact P2.
  split; [|exact T'].
  assert (R : nth_error runs i = Some ps) by easy.
  unfold s_dense_step, state_at. cbn [last_id last_lat last_lon kv_left].
  apply at_inv in L1 as L1'. rewrite L1'. cbn [obind].
  rewrite <- (sum_to_snoc _ _ _ L1), <- N1, arith_i64_ok by easy. cbn [obind].
  rewrite (dense_raw_ok _ _ _ _ L2), (dense_raw_ok _ _ _ _ L3) by easy. cbn [obind].
  rewrite (dense_internal_ok chk _ _ _ la kg ka) by easy. cbn [obind].
  rewrite (dense_internal_ok chk _ _ _ lo kg ko) by easy. cbn [obind].
  rewrite (column_skip _ _ _ R), take_tags_run by (eapply nth_Forall; eassumption). cbn [obind].
  apply (tags_at_inv _ _ _ _ Hs) in N6. rewrite N6. cbn [obind].
  unfold dense_meta. cbn [last_changeset last_uid last_user_sid last_timestamp].
  apply at_inv in L4 as L4', L5 as L5', L6 as L6', L7 as L7', N7 as N7'. rewrite L5'. cbn [obind].
  rewrite <- (sum_to_snoc _ _ _ L5), arith_i64_ok by (unfold in_u32, in_i64 in *; lia). cbn [obind].
  rewrite L6'. cbn [obind]. rewrite <- (sum_to_snoc _ _ _ L6), arith_i32_ok by (unfold in_i32; lia). cbn [obind].
  rewrite L7'. cbn [obind]. rewrite <- (sum_to_snoc _ _ _ L7).
  rewrite arith_i32_ok by (destruct N14; unfold in_i32; lia). cbn [obind].
  rewrite L4'. cbn [obind].
  pose proof (sum_to_snoc _ _ _ L4) as E4.
  rewrite (as_i32_id d4) by (unfold in_i32, sum_to in *; lia). rewrite <- E4.
  rewrite arith_i32_ok by (unfold in_i32; lia). cbn [obind].
  rewrite Z.mul_1_r, arith_i32_ok by (unfold in_i32; lia). cbn [obind].
  unfold assert. replace (sum_to i (di_uid di) <? 2^31 - 1) with true by (symmetry; apply Z.ltb_lt; lia). cbn [obind].
  rewrite (string_at_lookup _ _ _ _ Hs N14). cbn [obind]. rewrite N7'. cbn [obind].
  rewrite !as_u32_id by (unfold in_u32; lia || exact M7).
  f_equal. f_equal.
  - destruct n as [[id ver del cs ts uid usr] tags ll]. cbn in *. subst.
    repeat f_equal. unfold unwrap_or. destruct (nth_error (di_visible di) i) as [[|]|]; easy.
  - rewrite N1. reflexivity.
Qed.

Lemma s_dense_exact chk b raw st d ns : params_supported b -> s_strings raw = Ret st ->
  dense_is b raw d ns ->
  (forall di i n, dn_info d = Some di -> nth_error ns i = Some n -> node_supported b d di i n) ->
  s_decode_dense chk (gran_of b) (lat_off_of b) (lon_off_of b) 1 st d = Ret (map SNode ns).
Proof.
  intros Hb Hs (di & runs & Hi & Hk & Hg & L1 & L2 & L3 & L4 & L5 & L6 & L7 & L8 & L9 & _ & D) HS.
  unfold s_decode_dense. rewrite Hi. cbn [unwrap_or]. rewrite L1, Hk.
  assert (A : forall n i, (i + n = length ns)%nat -> 0 <= total (firstn i (di_timestamp di)) < 2^31 ->
    dense_loop (s_dense_step chk (gran_of b) (lat_off_of b) (lon_off_of b) 1 st d di) n i (state_at d di runs i)
    = Ret (map SNode (skipn i ns))).
  { induction n as [|n IH]; intros i Hn T; cbn [dense_loop].
    - rewrite skipn_all2 by lia. easy.
    - destruct (nth_lt ns i) as (x & Hx); [lia|].
      destruct (s_step_exact chk b raw st d di runs i x) as (E & T'); try easy; try lia; auto.
      rewrite E. cbn [obind]. rewrite IH by (try easy; lia). cbn [obind].
      now rewrite (skipn_nth _ _ _ Hx). }
  specialize (A (length ns) 0%nat). unfold state_at in A. cbn [firstn total fold_right skipn] in A.
  apply A; lia.
Qed.

Lemma obj_meta_exact b raw st o m : date_gran_of b = 1000 -> s_strings raw = Ret st -> info_is b raw o m ->
  has_flag o -> meta_supported m -> obj_meta s_deleted (at_z st) o (m_id m) = Ret m.
Proof.
  intros Hd Hs (inf & ts & u & sid & -> & I1 & _ & I2 & (s & I3 & I4) & I5 & _ & I6 & _ & I7 & I8 & I9 & I10)
    (inf' & F1 & F2) [_ (v & M1 & M2) _ (c & M3 & M4) (uid & M5 & M6)].
  injection F1 as <-. rewrite Hd in I4. assert (s = ts) by lia. subst s.
  unfold obj_meta. cbn [unwrap_or]. rewrite I2. cbn [unwrap obind]. unfold s_deleted.
  destruct (i_visible inf) as [vis|] eqn:Ev; [|easy]. cbn [unwrap_or obind].
  rewrite I5, M3, I6, M5, I7. cbn [unwrap obind]. rewrite (string_at_lookup _ _ _ _ Hs I9). cbn [obind].
  rewrite I1, M1. cbn [unwrap obind]. rewrite !as_u32_id by (unfold in_u32; lia || exact M4).
  destruct m. cbn in *. congruence.
Qed.

Lemma s_tags_exact raw st keys vals ts : s_strings raw = Ret st -> length keys = length vals ->
  tags_at raw (combine keys vals) ts -> s_tags_of st keys vals = Ret ts.
Proof.
  intros Hs L H. unfold s_tags_of, assert. rewrite L, Nat.eqb_refl. cbn [obind].
  now apply (tags_at_inv _ _ _ _ Hs).
Qed.

Lemma s_way_exact chk b raw st p w : date_gran_of b = 1000 -> s_strings raw = Ret st -> way_is b raw p w ->
  has_flag (pw_info p) -> meta_supported (sw_meta w) -> Forall in_i64 (sw_nodes w) ->
  s_decode_way chk st p = Ret (SWay w).
Proof.
  intros Hd Hs (W1 & W2 & W3 & W4 & W5) F M N. unfold s_decode_way. rewrite W1. cbn [unwrap obind].
  rewrite (s_tags_exact _ _ _ _ _ Hs W3 W4). cbn [obind]. rewrite (sum_refs_ok _ _ _ W5 N). cbn [obind].
  rewrite (obj_meta_exact _ _ _ _ _ Hd Hs W2 F M). cbn [obind]. now destruct w.
Qed.

Lemma s_rel_exact chk b raw st p r : date_gran_of b = 1000 -> s_strings raw = Ret st -> rel_is b raw p r ->
  has_flag (pr_info p) -> meta_supported (sr_meta r) -> Forall in_i64 (map mem_id (sr_members r)) ->
  s_decode_rel chk st p = Ret (SRel r).
Proof.
  intros Hd Hs (W1 & W2 & W3 & W4 & W5 & W6 & W7) F M N. unfold s_decode_rel.
  rewrite (s_tags_exact _ _ _ _ _ Hs W3 W4). cbn [obind]. rewrite (sum_refs_ok _ _ _ W6 N). cbn [obind].
  rewrite (zip_members_ok (at_z st) _ _ _ (sr_members r)).
  - cbn [obind]. rewrite rest_type_even; [|rewrite W5; unfold mem_id; now rewrite !map_length|rewrite map_length, <- (map_length mem_role); clear - W7; induction W7; cbn [length] in *; congruence].
    cbn [obind]. rewrite W1. cbn [unwrap_or]. rewrite (obj_meta_exact _ _ _ _ _ Hd Hs W2 F M). now destruct r.
  - exact W5.
  - reflexivity.
  - eapply Forall2_mono; [|exact W7]. intros x s H. eapply string_at_lookup; eassumption.
Qed.

Lemma omapM_ok {A B} (f : A -> outcome B) l r : Forall2 (fun a b => f a = Ret b) l r -> omapM f l = Ret r.
Proof. apply omapM_inv. Qed.

Theorem s_block_exact chk b objs : block_is b objs -> block_supported b objs ->
  s_decode_block chk (OF true true true) b = Ret objs.
Proof.
  intros (raw & ls & Hr & Ht & Hg & ->) (Hp & g & Eg & Hsup). unfold s_decode_block. rewrite Hr. cbn [unwrap obind].
  rewrite Eg in *. inv Hg. inv H3. cbn [concat] in *. rewrite app_nil_r in *. rename y into l.
  destruct (text_table_strings _ Ht) as (st & Hs).
  change (granularity b) with (gran_of b). change (lat_offset b) with (lat_off_of b).
  change (lon_offset b) with (lon_off_of b). change (date_granularity b) with (date_gran_of b).
  pose proof (ps_date _ Hp) as Hd. unfold s_decode_group. rewrite Hd. change (Z.quot 1000 1000) with 1.
  rewrite Hs. unfold group_supported in Hsup.
  inv H1; cbn [pg_nodes pg_dense pg_ways pg_rels nonempty is_some f_nodes f_ways f_rels andb unwrap_or obind] in *.
  - apply (s_dense_exact chk b raw); try easy. intros di i n Hi Hn. apply (Hsup di i n Hi).
    now rewrite nth_error_map, Hn.
  - destruct ps as [|p ps]; [easy|]. cbn [nonempty]. destruct Hsup as (F & _ & S).
    match goal with H : Forall2 (way_is _ _) _ _ |- _ => rename H into HW end.
    apply omapM_ok. remember (p :: ps) as ps0. clear - HW F S Hd Hs.
    induction HW; cbn [map] in *; constructor; inv F; inv S; [|now apply IHHW].
    match goal with H : meta_supported _ /\ _ |- _ => destruct H as (M & N) end. eapply s_way_exact; eassumption.
  - destruct ps as [|p ps]; [easy|]. cbn [nonempty]. destruct Hsup as (_ & F & S).
    match goal with H : Forall2 (rel_is _ _) _ _ |- _ => rename H into HW end.
    apply omapM_ok. remember (p :: ps) as ps0. clear - HW F S Hd Hs.
    induction HW; cbn [map] in *; constructor; inv F; inv S; [|now apply IHHW].
    match goal with H : meta_supported _ /\ _ |- _ => destruct H as (M & N) end. eapply s_rel_exact; eassumption.
Qed.
