(** C67, exactly: which objects of PBF files an XML file can hold, for both readers. *)
From Coq Require Import String ZArith List Bool Lia Permutation.
From Coq Require Import ZifyBool ZifyNat.
From Verif Require Import Base Ints Utf8 SpecCal Timestamp TimestampFacts PropsTime Obj ObjFacts PropsObj SpecObj SpecIter PbMsg PbMsgFacts PbfRead
  SpecPbf SpecPbfRead PbfFacts PbfExact PbfEncode PbRange PbfSound PbfFrame PropsPbfFile PropsPbfBlock PropsPbfEdge PropsPbfText PropsPbf
  Coord XmlWrite SpecXml SpecWriter XmlToken XmlWriteFacts XmlRead XmlRound XmlReadBack SpecXmlRead SpecXmlText PropsWriter PropsXml PropsXmlExact PropsFlow.
Import ListNotations.
Open Scope Z_scope.

(** What every object has that a PBF reader returns. *)
Definition pbf_complete (o : sobj) : Prop :=
  in_range o /\ m_version (s_meta o) <> None /\ has_position o /\ strings o
  /\ exists t, m_timestamp (s_meta o) = Some (EpochNumber t) /\ in_i64 t.

Lemma arith64_range chk z y : arith_i64 chk z = Ret y -> in_i64 y.
Proof. intros H. apply arith64_cases in H as (-> & _). apply as_i64_range. Qed.
Lemma i32_i64 x : in_i32 x -> in_i64 x.
Proof. unfold in_i32, in_i64. lia. Qed.

Lemma valid_iso t : valid_str (to_iso_string (EpochNumber t)).
Proof.
  pose proof (carried_iso (fun c => c) (fun c _ _ _ => eq_refl) (EpochNumber t) I) as H. eapply Forall_impl; [|exact H].
  intros c [K _]. unfold xml_char in K. unfold scalar. lia.
Qed.

Lemma dense_meta_ok chk dg user di i s id m acc : dense_meta chk dg user di i s id = Ret (m, acc) ->
  (forall j u, user j = Ret u -> valid_str u) -> in_i64 id ->
  exists v c t u n, m = Meta id (Some v) (m_deleted m) (Some c) (Some (EpochNumber t)) (Some u) (Some n)
    /\ in_u32 v /\ in_u32 c /\ in_i64 t /\ in_u32 u /\ valid_str n.
Proof.
  intros H Hu Hid. unfold dense_meta in H. binds H. injection H as <- _.
  do 5 eexists. split; [reflexivity|]. split; [apply as_u32_range|]. split; [apply as_u32_range|].
  split; [apply i32_i64; eapply arith32_range; eassumption|]. split; [apply as_u32_range|]. eapply Hu. eassumption.
Qed.

Lemma obj_meta_ok deleted user o id m : PbfRead.obj_meta deleted user o id = Ret m ->
  (forall j u, user j = Ret u -> valid_str u) -> opt_all ok_info o ->
  exists v c t u n, m = Meta id (Some v) (m_deleted m) (Some c) (Some (EpochNumber t)) (Some u) (Some n)
    /\ in_u32 v /\ in_u32 c /\ in_i64 t /\ in_u32 u /\ valid_str n.
Proof.
  intros H Hu Ho. unfold PbfRead.obj_meta in H. cbv zeta in H. binds H. injection H as <-.
  do 5 eexists. split; [reflexivity|]. split; [apply as_u32_range|]. split; [apply as_u32_range|].
  split; [|split; [apply as_u32_range|eapply Hu; eassumption]].
  destruct o as [inf|]; [|cbn in E; discriminate]. destruct Ho as (_ & K & _). cbn [unwrap_or] in E.
  destruct (i_timestamp inf); [|discriminate]. injection E as <-. exact K.
Qed.

Lemma internal_range chk gran off raw x : dense_internal chk gran off raw = Ret x -> in_i32 x.
Proof. unfold dense_internal. cbv zeta. intros H. binds H. eapply arith32_range. exact H. Qed.

Lemma sum_refs_range chk l xs : Forall in_i64 l -> sum_refs chk l = Ret xs -> Forall in_i64 xs.
Proof.
  assert (G : forall l last xs, sum_refs_from chk last l = Ret xs -> Forall in_i64 xs).
  { induction l0 as [|d r IH]; intros last ys H; cbn [sum_refs_from] in H; [injection H as <-; constructor|].
    binds H. injection H as <-. constructor; [eapply arith64_range; eassumption|eapply IH; eassumption]. }
  intros Hl H. destruct l as [|d r]; cbn [sum_refs] in H; [injection H as <-; constructor|].
  binds H. injection H as <-. inversion Hl; subst. constructor; [assumption|eapply G; eassumption].
Qed.

Lemma nth_valid (st : list str) i s : Forall valid_str st -> at_z st i = Ret s -> valid_str s.
Proof. intros H E. apply at_z_inv in E as (_ & E). apply nth_error_In in E. rewrite Forall_forall in H. now apply H. Qed.
Definition opt_valid (o : option str) : Prop := match o with Some s => valid_str s | None => True end.
Lemma nth_opt_valid (st : list (option str)) i s : Forall opt_valid st -> at_z st i = Ret s -> opt_valid s.
Proof. intros H E. apply at_z_inv in E as (_ & E). apply nth_error_In in E. rewrite Forall_forall in H. now apply H. Qed.
Lemma user_valid (st : list (option str)) j u : Forall opt_valid st -> (do o <- at_z st j; unwrap o) = Ret u -> valid_str u.
Proof.
  intros H E. destruct (at_z st j) as [[s|]|] eqn:A; cbn in E; try discriminate. injection E as <-.
  exact (nth_opt_valid _ _ _ H A).
Qed.

Lemma s_tags_valid st ps ts : Forall valid_str st -> omapM (s_tag_at st) ps = Ret ts ->
  Forall (fun t => valid_str (fst t) /\ valid_str (snd t)) ts.
Proof.
  intros H E. apply omapM_inv in E. induction E as [|p t ps ts E _ IH]; [constructor|]. constructor; [|exact IH].
  unfold s_tag_at in E. binds E. injection E as <-. split; eapply nth_valid; eassumption.
Qed.
Lemma a_tags_valid st ps ts : Forall opt_valid st -> a_tags_at st ps = Ret ts ->
  Forall (fun t => valid_str (fst t) /\ valid_str (snd t)) ts.
Proof.
  intros H E. unfold a_tags_at in E. binds E. injection E as <-. apply omapM_inv in E0.
  induction E0 as [|p t ps ts E _ IH]; [constructor|]. unfold a_tag_at in E. binds E. injection E as <-.
  pose proof (nth_opt_valid _ _ _ H E0) as A. pose proof (nth_opt_valid _ _ _ H E1) as B.
  cbn [filter_map]. destruct a as [k|], a0 as [v|]; try exact IH. constructor; [split; assumption|exact IH].
Qed.

Lemma node_complete id v d c t u n tags la lo : in_i64 id -> in_u32 v -> in_u32 c -> in_i64 t -> in_u32 u -> valid_str n ->
  Forall (fun t => valid_str (fst t) /\ valid_str (snd t)) tags -> in_i32 la -> in_i32 lo ->
  pbf_complete (SNode (SN (Meta id (Some v) d (Some c) (Some (EpochNumber t)) (Some u) (Some n)) tags (Some (la, lo)))).
Proof.
  intros. split; [repeat split; try apply H; try apply H0; try apply H1; try apply H3; try apply H6; try apply H7|].
  split; [discriminate|]. split; [discriminate|]. split; [|exists t; split; [reflexivity|assumption]].
  split; [assumption|]. split; [assumption|]. split; [constructor|apply valid_iso].
Qed.
Lemma way_complete id v d c t u n tags ns : in_i64 id -> in_u32 v -> in_u32 c -> in_i64 t -> in_u32 u -> valid_str n ->
  Forall (fun t => valid_str (fst t) /\ valid_str (snd t)) tags -> Forall in_i64 ns ->
  pbf_complete (SWay (SW (Meta id (Some v) d (Some c) (Some (EpochNumber t)) (Some u) (Some n)) tags ns)).
Proof.
  intros. split; [split; [assumption|]; split; [assumption|]; split; [assumption|]; split; assumption|].
  split; [discriminate|]. split; [exact I|]. split; [|exists t; split; [reflexivity|assumption]].
  split; [assumption|]. split; [assumption|]. split; [constructor|apply valid_iso].
Qed.
Lemma rel_complete id v d c t u n tags (ms : list member) : in_i64 id -> in_u32 v -> in_u32 c -> in_i64 t -> in_u32 u -> valid_str n ->
  Forall (fun t => valid_str (fst t) /\ valid_str (snd t)) tags -> Forall (fun m => in_i64 (snd (fst m)) /\ valid_str (snd m)) ms ->
  pbf_complete (SRel (SR (Meta id (Some v) d (Some c) (Some (EpochNumber t)) (Some u) (Some n)) tags ms)).
Proof.
  intros ? ? ? ? ? ? ? Hm. split.
  { split; [assumption|]; split; [assumption|]; split; [assumption|]; split; [assumption|].
    eapply Forall_impl; [|exact Hm]. now intros m []. }
  split; [discriminate|]. split; [exact I|]. split; [|exists t; split; [reflexivity|assumption]].
  split; [assumption|]. split; [assumption|]. split; [|apply valid_iso]. eapply Forall_impl; [|exact Hm]. now intros m [].
Qed.

Lemma s_dense_complete chk gran lato lono dg st d di i s o s' : Forall valid_str st ->
  s_dense_step chk gran lato lono dg st d di i s = Ret (o, s') -> pbf_complete o.
Proof.
  intros Hst H. unfold s_dense_step in H. binds H. injection H as <- _.
  match goal with K : dense_meta _ _ _ _ _ _ _ = _ |- _ => apply dense_meta_ok in K as (v & c & t & u & n & -> & K1 & K2 & K3 & K4 & K5) end.
  - apply node_complete; try assumption; try (eapply internal_range; eassumption).
    + eapply arith64_range; eassumption.
    + eapply s_tags_valid; eassumption.
  - intros j w. now apply nth_valid.
  - eapply arith64_range; eassumption.
Qed.

Lemma a_dense_complete chk gran lato lono dg st d di i s o s' : Forall opt_valid st ->
  a_dense_step chk gran lato lono dg st d di i s = Ret (o, s') -> pbf_complete (a_view o).
Proof.
  intros Hst H. unfold a_dense_step in H. binds H. injection H as <- _. cbn [a_view an_meta an_tags an_latlon].
  match goal with K : dense_meta _ _ _ _ _ _ _ = _ |- _ => apply dense_meta_ok in K as (v & c & t & u & n & -> & K1 & K2 & K3 & K4 & K5) end.
  - apply node_complete; try assumption; try (eapply internal_range; eassumption).
    + eapply arith64_range; eassumption.
    + match goal with K : match dn_keys_vals d with _ => _ end = Ret _ |- _ => destruct (dn_keys_vals d); [injection K as <- _; constructor|]; binds K; injection K as <- _ end.
      eapply a_tags_valid; eassumption.
  - intros j w. now apply user_valid.
  - eapply arith64_range; eassumption.
Qed.

Lemma s_way_complete chk st w o : Forall valid_str st -> ok_way w -> s_decode_way chk st w = Ret o -> pbf_complete o.
Proof.
  intros Hst (O1 & _ & _ & O2 & O3) H. unfold s_decode_way in H. binds H. injection H as <-.
  assert (Hid : in_i64 a) by (destruct (pw_id w); [injection E as <-; exact O1|discriminate]).
  match goal with K : PbfRead.obj_meta _ _ _ _ = _ |- _ => apply obj_meta_ok in K as (v & c & t & u & n & -> & K1 & K2 & K3 & K4 & K5) end;
    [|intros j y; now apply nth_valid|exact O2].
  apply way_complete; try assumption.
  - match goal with K : s_tags_of _ _ _ = _ |- _ => unfold s_tags_of in K; binds K end. eapply s_tags_valid; eassumption.
  - eapply sum_refs_range; eassumption.
Qed.
Lemma a_way_complete (chk : build) st w o : Forall opt_valid st -> ok_way w -> a_decode_way chk st w = Ret o -> pbf_complete (a_view o).
Proof.
  intros Hst (O1 & _ & _ & O2 & O3) H. unfold a_decode_way in H. binds H. injection H as <-.
  assert (Hid : in_i64 (unwrap_or (pw_id w) 0)) by (destruct (pw_id w); [exact O1|cbn; unfold in_i64; lia]).
  match goal with K : PbfRead.obj_meta _ _ _ _ = _ |- _ => apply obj_meta_ok in K as (v & c & t & u & n & -> & K1 & K2 & K3 & K4 & K5) end;
    [|intros j y; now apply user_valid|exact O2].
  apply way_complete; try assumption.
  - match goal with K : a_tags_of _ _ _ _ = _ |- _ => unfold a_tags_of in K; binds K; injection K as <- end. eapply a_tags_valid; eassumption.
  - eapply sum_refs_range; eassumption.
Qed.

Lemma zip_forall {R} (P : R -> Prop) (role : Z -> outcome R) (Hr : forall z x, role z = Ret x -> P x) : forall types ids roles l,
  Forall in_i64 ids -> zip_members role types ids roles = Ret l -> Forall (fun m => in_i64 (snd (fst m)) /\ P (snd m)) l.
Proof.
  induction types as [|t types IH]; intros ids roles l Hi H; cbn [zip_members] in H; [injection H as <-; constructor|].
  destruct ids as [|i ids]; [injection H as <-; constructor|]. destruct roles as [|r roles]; [injection H as <-; constructor|].
  binds H. injection H as <-. inversion Hi; subst. constructor; [split; [assumption|eapply Hr; eassumption]|eapply IH; eassumption].
Qed.

Lemma s_rel_complete (chk : build) st r o : Forall valid_str st -> ok_rel r -> s_decode_rel chk st r = Ret o -> pbf_complete o.
Proof.
  intros Hst (O1 & _ & _ & O2 & _ & O3 & _) H. unfold s_decode_rel in H. binds H. injection H as <-.
  assert (Hid : in_i64 (unwrap_or (pr_id r) 0)) by (destruct (pr_id r); [exact O1|cbn; unfold in_i64; lia]).
  match goal with K : PbfRead.obj_meta _ _ _ _ = _ |- _ => apply obj_meta_ok in K as (v & c & t & u & n & -> & K1 & K2 & K3 & K4 & K5) end;
    [|intros j y; now apply nth_valid|exact O2].
  apply rel_complete; try assumption.
  - match goal with K : s_tags_of _ _ _ = _ |- _ => unfold s_tags_of in K; binds K end. eapply s_tags_valid; eassumption.
  - eapply zip_forall; [|eapply sum_refs_range; eassumption|eassumption]. intros z x. now apply nth_valid.
Qed.
Lemma a_rel_complete (chk : build) st r o : Forall opt_valid st -> ok_rel r -> a_decode_rel chk st r = Ret o -> pbf_complete (a_view o).
Proof.
  intros Hst (O1 & _ & _ & O2 & _ & O3 & _) H. unfold a_decode_rel in H. binds H. injection H as <-.
  assert (Hid : in_i64 (unwrap_or (pr_id r) 0)) by (destruct (pr_id r); [exact O1|cbn; unfold in_i64; lia]).
  match goal with K : PbfRead.obj_meta _ _ _ _ = _ |- _ => apply obj_meta_ok in K as (v & c & t & u & n & -> & K1 & K2 & K3 & K4 & K5) end;
    [|intros j y; now apply user_valid|exact O2].
  apply rel_complete; try assumption.
  - match goal with K : a_tags_of _ _ _ _ = _ |- _ => unfold a_tags_of in K; binds K; injection K as <- end. eapply a_tags_valid; eassumption.
  - match goal with K : zip_members _ _ _ _ = _ |- _ => apply (zip_forall opt_valid) in K as F end;
      [|intros z x; now apply nth_opt_valid|eapply sum_refs_range; eassumption].
    clear -F. induction F as [|[[ty i] [s|]] l [A B] _ IH]; cbn [filter_map keep_member]; [constructor| |exact IH].
    constructor; [split; assumption|exact IH].
Qed.

Lemma s_strings_valid raw st : s_strings raw = Ret st -> Forall valid_str st.
Proof.
  intros H. apply omapM_inv in H. induction H as [|b s raw st E _ IH]; [constructor|]. constructor; [|exact IH].
  destruct (utf8_decode b) eqn:D; [|discriminate]. injection E as <-. now apply utf8_decode_inv in D.
Qed.
Lemma a_strings_valid raw : Forall opt_valid (a_strings raw).
Proof.
  unfold a_strings. apply Forall_map. apply Forall_forall. intros b _. destruct (utf8_decode b) eqn:D; [|exact I]. now apply utf8_decode_inv in D.
Qed.

Lemma omapM_all {A B} (P : A -> Prop) (Q : B -> Prop) (f : A -> outcome B) l r : (forall a b, P a -> f a = Ret b -> Q b) ->
  Forall P l -> omapM f l = Ret r -> Forall Q r.
Proof.
  intros H Hl E. apply omapM_inv in E. induction E as [|a b l r E _ IH]; [constructor|]. inversion Hl; subst.
  constructor; [eapply H; eassumption|now apply IH].
Qed.
Lemma loop_all {A} (Q : A -> Prop) step n s l : (forall i s o s', step i s = Ret (o, s') -> Q o) -> dense_loop step n 0 s = Ret l -> Forall Q l.
Proof. intros H E. apply nth_all. intros i x Hx. exact (dense_loop_all (fun _ => Q) step H n 0 s l E i x Hx). Qed.

Lemma s_group_complete (chk : build) gran lato lono dg raw flt g l : ok_group g ->
  s_decode_group chk gran lato lono dg raw flt g = Ret l -> Forall pbf_complete l.
Proof.
  intros (_ & Od & Ow & Or & _) H. unfold s_decode_group in H. cbv zeta in H.
  destruct (nonempty (pg_nodes g) && f_nodes flt); [discriminate|].
  destruct (is_some (pg_dense g) && f_nodes flt); [|destruct (nonempty (pg_ways g) && f_ways flt); [|destruct (nonempty (pg_rels g) && f_rels flt)]];
    try (injection H as <-; constructor); destruct (s_strings raw) as [st|] eqn:Es; try discriminate; cbn [obind] in H; pose proof (s_strings_valid _ _ Es) as V.
  - unfold s_decode_dense in H. eapply loop_all; [|exact H]. intros. eapply s_dense_complete; eassumption.
  - eapply omapM_all; [|exact Ow|exact H]. intros. eapply s_way_complete; eassumption.
  - eapply omapM_all; [|exact Or|exact H]. intros. eapply s_rel_complete; eassumption.
Qed.
Lemma a_group_complete (chk : build) gran lato lono dg st g l : Forall opt_valid st -> ok_group g ->
  a_decode_group chk gran lato lono dg st g = Ret l -> Forall (fun o => pbf_complete (a_view o)) l.
Proof.
  intros V (_ & Od & Ow & Or & _) H. unfold a_decode_group in H. cbv zeta in H.
  destruct (nonempty (pg_nodes g)); [discriminate|].
  destruct (is_some (pg_dense g)); [|destruct (nonempty (pg_ways g)); [|destruct (nonempty (pg_rels g)); [|discriminate]]].
  - unfold a_decode_dense in H. eapply loop_all; [|exact H]. intros. eapply a_dense_complete; eassumption.
  - eapply omapM_all; [|exact Ow|exact H]. intros. eapply a_way_complete; eassumption.
  - eapply omapM_all; [|exact Or|exact H]. intros. eapply a_rel_complete; eassumption.
Qed.

Lemma s_blob_complete rt chk infl flt b l : s_blob rt chk infl flt b = Ret l -> Forall pbf_complete l.
Proof.
  intros H. unfold s_blob in H. destruct (s_blob_data infl b) as [[|x data]|]; [injection H as <-; constructor| |discriminate].
  cbn [obind] in H. destruct (parse_block rt (x :: data)) as [blk|] eqn:Eb; [|discriminate]. cbn [unwrap obind] in H.
  pose proof (block_range _ _ _ Eb) as (Ok & _). unfold s_decode_block in H.
  destruct (pb_strings blk) as [raw|]; [|discriminate]. cbn [unwrap obind] in H.
  destruct (pb_groups blk) as [|g [|]]; try discriminate. inversion Ok; subst. eapply s_group_complete; eassumption.
Qed.
Lemma a_blob_complete rt chk infl b l : a_blob rt chk infl b = Ret l -> Forall (fun o => pbf_complete (a_view o)) l.
Proof.
  intros H. unfold a_blob in H. destruct (a_blob_data infl b) as [data|]; [|discriminate].
  cbn [obind] in H. destruct (parse_block rt data) as [blk|] eqn:Eb; [|discriminate]. cbn [unwrap obind] in H.
  pose proof (block_range _ _ _ Eb) as (Ok & _). unfold a_decode_block in H. cbv zeta in H. binds H. injection H as <-.
  apply Forall_concat. eapply omapM_all; [|exact Ok|exact E]. intros g l Hg Hl. eapply a_group_complete; [|exact Hg|exact Hl]. apply a_strings_valid.
Qed.

Lemma buffered_all {A} (Q : A -> Prop) rt decode src l r : (forall b l, decode b = Ret l -> Forall Q l) ->
  Runs (buf_next rt decode) (src, []) l r -> Forall Q l.
Proof.
  intros HQ H.
  assert (C : forall bs ls, Forall2 (fun b l => decode b = Ret l) bs ls -> Forall Q (concat ls)).
  { intros bs ls F. induction F as [|b x bs ls E _ IH]; [constructor|]. cbn [concat]. apply Forall_app. split; [eapply HQ; exact E|exact IH]. }
  apply buffered_inv in H as (bs & rb & _ & [(ls & F & -> & _)|(bs1 & b & bs2 & ls & _ & _ & F & -> & _)]); eapply C; exact F.
Qed.
Lemma s_complete rt chk infl src os r : Runs (s_next rt chk infl) (s_new src) os r -> Forall pbf_complete os.
Proof.
  intros H. apply s_next_runs_inv in H as (r' & H & _). cbn [s_new sr_filter sr_src sr_buf] in H.
  eapply buffered_all; [|exact H]. intros b l. apply s_blob_complete.
Qed.
Lemma a_complete rt chk infl src os r : Runs (a_next rt chk infl) (src, []) os r -> Forall pbf_complete (map a_view os).
Proof.
  intros H. apply a_next_runs_inv in H as (r' & H & _). apply Forall_map.
  eapply buffered_all; [|exact H]. intros b l. apply a_blob_complete.
Qed.

(** ** C67, exactly *)

Lemma complete_back aw o : normalises aw -> pbf_complete o -> (comes_back aw o <-> texts_carried aw o).
Proof.
  intros Hw (_ & _ & P & _ & t & E & _). unfold comes_back, texts, texts_carried. rewrite E. cbn [opt_prop].
  assert (C : carried aw (to_iso_string (EpochNumber t)) /\ plain (to_iso_string (EpochNumber t))).
  { split; [apply carried_iso; [exact Hw|exact I]|]. pose proof (epoch_iso_tame t) as T.
    eapply Forall_impl; [|exact (tame_unmarked _ T)]. intros c K. cbn in K. tauto. }
  split; [intros (_ & A & B & D & _)|intros (A & B & D)].
  - split; [exact A|]. split; [exact B|]. destruct o; [exact I|exact I|exact D].
  - split; [exact P|]. split; [exact A|]. split; [exact B|]. split; [|exact C]. destruct o; [constructor|constructor|exact D].
Qed.

(** What is read back compares equal exactly if the timestamp is a 32 bit number without sign. *)
Lemma complete_equal o t : m_timestamp (s_meta o) = Some (EpochNumber t) -> (s_eqb (as_read o) o = true <-> 0 <= t < 2^32).
Proof.
  assert (K : timestamp_eqb (ISOString (to_iso_string (EpochNumber t))) (EpochNumber t) = true <-> 0 <= t < 2^32).
  { cbn [timestamp_eqb to_iso_string to_epoch_number]. rewrite Z.eqb_eq. unfold iso_to_epoch.
    rewrite (parse_canonical _ _ (epoch_to_iso_canonical (as_i32 t) (as_i32_range t))).
    split; [intros <-; apply as_u32_range|]. intros H. unfold as_u32, as_i32.
    assert (D : t < 2^31 \/ 2^31 <= t) by lia. destruct D as [D|D].
    - rewrite (Z.mod_small (t + 2^31)) by lia. rewrite Z.mod_small; lia.
    - replace (t + 2^31) with (t - 2^31 + 1 * 2^32) by lia. rewrite Z.mod_add, (Z.mod_small (t - 2^31)) by lia.
      replace (t - 2^31 - 2^31) with (t + (-1) * 2^32) by lia. rewrite Z.mod_add, Z.mod_small by lia. reflexivity. }
  assert (M : forall m, m_timestamp m = Some (EpochNumber t) ->
    meta_eqb (meta_as_read m) m = timestamp_eqb (ISOString (to_iso_string (EpochNumber t))) (EpochNumber t)).
  { intros m E. unfold meta_eqb, meta_as_read. cbn [m_id m_version m_deleted m_changeset m_timestamp m_uid m_user].
    rewrite Z.eqb_refl, eqb_reflx, !(opt_eqb_refl Z.eqb Z.eqb_refl), (opt_eqb_refl str_eqb str_eqb_refl), E.
    cbn [opt_map opt_eqb]. cbn [andb]. now rewrite ?andb_true_r. }
  intros E. rewrite <- K. destruct o as [n|w|r]; cbn [as_read s_eqb sn_meta sn_tags sn_latlon sw_meta
    sw_tags sw_nodes sr_meta sr_tags sr_members s_meta] in *; rewrite (M _ E), (list_eqb_refl tag_eqb tag_eqb_refl).
  - rewrite (opt_eqb_refl _ latlon_eqb_refl). now rewrite !andb_true_r.
  - rewrite (list_eqb_refl _ Z.eqb_refl). now rewrite !andb_true_r.
  - rewrite (list_eqb_refl _ member_eqb_refl). now rewrite !andb_true_r.
Qed.

Definition converts (os : list sobj) : Prop :=
  forall attr_ws, normalises attr_ws -> forall ord, (forall l, Permutation (ord l) l) ->
  let xml := run_calls (xml_call ord) (new_writer None) (map CWrite os ++ [CClose]) in
  let osc := run_calls osc_call (new_writer None) (map CWrite os ++ [CClose]) in
  snd xml = repeat (WOk tt) (S (length os)) /\ snd osc = repeat (WOk tt) (S (length os))
  /\ (Runs xml_next (xml_items attr_ws (out (fst xml))) (map as_read os) (Ret []) <-> Forall (texts_carried attr_ws) os)
  /\ (Runs osc_next (xml_items attr_ws (out (fst osc))) (map as_read os) (Ret []) <-> Forall (texts_carried attr_ws) os)
  /\ Forall (fun o => exists t, m_timestamp (s_meta o) = Some (EpochNumber t) /\ (s_eqb (as_read o) o = true <-> 0 <= t < 2^32)) os.

Lemma complete_converts os : Forall pbf_complete os -> converts os.
Proof.
  intros Ho aw Hw ord Hord. cbv zeta.
  assert (Hv : Forall (fun o => m_version (s_meta o) <> None) os).
  { eapply Forall_impl; [|exact Ho]. now intros o (_ & V & _). }
  assert (E : written (map CWrite os ++ [CClose]) = os) by (clear; induction os as [|o os IH]; [reflexivity|cbn; f_equal; exact IH]).
  assert (P : Forall (fun o => in_range o /\ m_version (s_meta o) <> None /\ strings o) os).
  { eapply Forall_impl; [|exact Ho]. intros o (A & B & _ & C & _). tauto. }
  assert (Q : Forall (comes_back aw) os <-> Forall (texts_carried aw) os).
  { rewrite !Forall_forall in *. split; intros K o Hin; apply (complete_back aw o Hw (Ho o Hin)), K, Hin. }
  split; [|split; [|split; [|split]]].
  - apply results_ok; [| |exact Hv].
    + intros l o V. rewrite (proj1 (C23_xml_results ord (map CWrite l) (CWrite o))). rewrite closed_writes.
      unfold write_res. now destruct (m_version (s_meta o)).
    + intros l. exact (proj1 (C23_xml_results ord (map CWrite l) CClose)).
  - apply results_ok; [| |exact Hv].
    + intros l o V. rewrite (proj1 (C23_osc_results (map CWrite l) (CWrite o))). rewrite closed_writes.
      unfold write_res. now destruct (m_version (s_meta o)).
    + intros l. exact (proj1 (C23_osc_results (map CWrite l) CClose)).
  - pose proof (C27_exact aw Hw ord Hord (map CWrite os ++ [CClose])) as X. rewrite E in X. rewrite X; [exact Q| | |exact P].
    + clear. induction os as [|o os IH]; [reflexivity|exact IH].
    + clear. destruct os; constructor.
  - pose proof (C28_exact aw Hw (map CWrite os)) as X. rewrite writes_written in X. rewrite X; [exact Q|exact P].
  - eapply Forall_impl; [|exact Ho]. intros o (_ & _ & _ & _ & t & T & _). exists t. split; [exact T|]. now apply complete_equal.
Qed.

(** Whatever a PBF file's bytes are: everything the readers returned, until the end or a panic, is
    accepted by both writers.  Reading back gives the same objects (the timestamp as its text) and
    then the end exactly if XML can carry all user names, tags and roles; and the objects compare
    equal to the originals exactly if their timestamps are between 0 and 2^32 - 1. *)
Theorem C67_exact : forall rt chk inflate src os r, Runs (s_next rt chk inflate) (s_new src) os r ->
  forall attr_ws, normalises attr_ws -> forall ord, (forall l, Permutation (ord l) l) ->
  let xml := run_calls (xml_call ord) (new_writer None) (map CWrite os ++ [CClose]) in
  let osc := run_calls osc_call (new_writer None) (map CWrite os ++ [CClose]) in
  snd xml = repeat (WOk tt) (S (length os)) /\ snd osc = repeat (WOk tt) (S (length os))
  /\ (Runs xml_next (xml_items attr_ws (out (fst xml))) (map as_read os) (Ret []) <-> Forall (texts_carried attr_ws) os)
  /\ (Runs osc_next (xml_items attr_ws (out (fst osc))) (map as_read os) (Ret []) <-> Forall (texts_carried attr_ws) os)
  /\ Forall (fun o => exists t, m_timestamp (s_meta o) = Some (EpochNumber t) /\ (s_eqb (as_read o) o = true <-> 0 <= t < 2^32)) os.
Proof. intros rt chk infl src os r H. exact (complete_converts os (s_complete _ _ _ _ _ _ H)). Qed.
Print Assumptions C67_exact.

(** The same for the objects of the Arc reader. *)
Theorem C67_arc_exact : forall rt chk inflate src aos r, Runs (a_next rt chk inflate) (src, []) aos r ->
  let os := map a_view aos in
  forall attr_ws, normalises attr_ws -> forall ord, (forall l, Permutation (ord l) l) ->
  let xml := run_calls (xml_call ord) (new_writer None) (map CWrite os ++ [CClose]) in
  let osc := run_calls osc_call (new_writer None) (map CWrite os ++ [CClose]) in
  snd xml = repeat (WOk tt) (S (length os)) /\ snd osc = repeat (WOk tt) (S (length os))
  /\ (Runs xml_next (xml_items attr_ws (out (fst xml))) (map as_read os) (Ret []) <-> Forall (texts_carried attr_ws) os)
  /\ (Runs osc_next (xml_items attr_ws (out (fst osc))) (map as_read os) (Ret []) <-> Forall (texts_carried attr_ws) os)
  /\ Forall (fun o => exists t, m_timestamp (s_meta o) = Some (EpochNumber t) /\ (s_eqb (as_read o) o = true <-> 0 <= t < 2^32)) os.
Proof. intros rt chk infl src os r H. exact (complete_converts _ (a_complete _ _ _ _ _ _ H)). Qed.
Print Assumptions C67_arc_exact.

(** A file the readers read and XML cannot hold: a way with a control character in a tag. *)
Definition bell_way : sway := SW (PropsPbf.ex_meta 10) [([107], [7])] [1; 2].
Definition bell_file : bytes := write_file ex_id [1; 2] [KWays [bell_way]].
Example C67_exact_ex :
  (exists s, Runs (s_next ex_rt (Base.plain true) Some) (s_new bell_file) [SWay bell_way] (Ret s))
  /\ (exists s, Runs (a_next ex_rt (Base.plain true) Some) (bell_file, []) [AWay (AW (sw_meta bell_way) (sw_tags bell_way) (sw_nodes bell_way))] (Ret s))
  /\ ~ texts_carried (fun c => c) (SWay bell_way)
  /\ (exists os s, Runs (s_next ex_rt (Base.plain true) Some) (s_new PropsPbf.ex_file) os s /\ length os = 4%nat /\ Forall (texts_carried (fun c => c)) os).
Proof.
  split; [eexists; eapply Runs_step; [vm_compute; reflexivity|]; apply Runs_end; vm_compute; reflexivity|].
  split; [eexists; eapply Runs_step; [vm_compute; reflexivity|]; apply Runs_end; vm_compute; reflexivity|].
  split; [intros (_ & K & _); inversion K as [|? ? [_ K'] _]; inversion K' as [|? ? [K2 _] _]; discriminate|].
  destruct C67_example as (os & A & B & C). now exists os, (Ret (s_new [])).
Qed.
