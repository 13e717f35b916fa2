(** A writer that follows the format: string table, delta coding, one group per
    block.  It shows that the hypotheses of the reading theorems can be met for
    every list of objects within the limits.  (Specification side: osmio itself has
    no PBF writer.) *)
From Coq Require Import String ZArith List Bool Lia.
From Verif Require Import Base Utf8 Timestamp Obj PbWire PbMsg PbMsgFacts PbfRead SpecPbf PbfFacts PbfExact.
Import ListNotations.
Open Scope Z_scope.

(** ** Delta coding *)
Fixpoint deltas_from (last : Z) (l : list Z) : list Z :=
  match l with [] => [] | x :: r => (x - last) :: deltas_from x r end.
Definition deltas (l : list Z) : list Z := deltas_from 0 l.

Lemma deltas_from_sum : forall l last i x, nth_error l i = Some x ->
  total (firstn (S i) (deltas_from last l)) = x - last.
Proof.
  induction l as [|y l IH]; intros last [|i] x H; try easy.
  - cbn in H. injection H as ->. cbn. lia.
  - cbn [nth_error] in H. cbn [deltas_from]. specialize (IH y i x H).
    change (firstn (S (S i)) (y - last :: deltas_from y l)) with ((y - last) :: firstn (S i) (deltas_from y l)).
    unfold total in *. cbn [fold_right]. rewrite IH. lia.
Qed.
Lemma deltas_sum l i x : nth_error l i = Some x -> sum_to i (deltas l) = x.
Proof. intros H. unfold sum_to, deltas. rewrite (deltas_from_sum _ _ _ _ H). lia. Qed.
Lemma deltas_length l : length (deltas l) = length l.
Proof. unfold deltas. generalize 0. induction l as [|x l IH]; intros z; cbn; [easy|]. now rewrite IH. Qed.
Lemma deltas_range (lo hi lo' hi' : Z) l : lo <= 0 <= hi -> lo' <= lo - hi -> hi - lo <= hi' ->
  Forall (fun x => lo <= x <= hi) l -> Forall (fun x => lo' <= x <= hi') (deltas l).
Proof.
  intros H0 H1 H2 F. unfold deltas. assert (A : forall z, lo <= z <= hi -> Forall (fun x => lo' <= x <= hi') (deltas_from z l)).
  { induction F as [|x l Hx F IH]; intros z Hz; constructor; [lia|]. now apply IH. }
  now apply A.
Qed.
Lemma deltas_sums l : sums (deltas l) l.
Proof.
  split; [symmetry; apply deltas_length|]. intros i x H. symmetry. now apply deltas_sum.
Qed.

(** ** The string table *)
Fixpoint index_of (s : str) (l : list str) : Z :=
  match l with [] => 0 | x :: r => if str_eqb s x then 0 else 1 + index_of s r end.

Lemma index_of_ok s l : In s l -> 0 <= index_of s l < Z.of_nat (length l) /\
  nth_error l (Z.to_nat (index_of s l)) = Some s.
Proof.
  induction l as [|x l IH]; intros H; [easy|]. cbn [index_of length].
  destruct (str_eqb s x) eqn:E.
  - apply str_eqb_eq in E. subst. cbn. split; [lia|easy].
  - destruct H as [->|H]; [now rewrite str_eqb_refl in E|]. apply IH in H as (H1 & H2). split; [lia|].
    replace (Z.to_nat (1 + index_of s l)) with (S (Z.to_nat (index_of s l))) by lia. exact H2.
Qed.

Definition user_of (m : meta) : str := unwrap_or (m_user m) [].
Definition tag_strings (t : tags) : list str := flat_map (fun kv => [fst kv; snd kv]) t.
Definition obj_strings (o : sobj) : list str :=
  user_of (s_meta o) :: tag_strings (s_tags o) ++
  match o with SRel r => map mem_role (sr_members r) | _ => [] end.
(** Entry 0 is the empty string, as the format prescribes. *)
Definition table (objs : list sobj) : list str := [] :: flat_map obj_strings objs.
Definition raw_table (objs : list sobj) : string_table := map utf8 (table objs).
(** The index of a string; never 0, so that a key is never taken for a delimiter. *)
Definition idx (objs : list sobj) (s : str) : Z := 1 + index_of s (flat_map obj_strings objs).

(** ** Messages *)
Definition time_of (m : meta) : Z := match m_timestamp m with Some (EpochNumber t) => t | _ => 0 end.
Definition enc_info (ix : str -> Z) (m : meta) : info :=
  Info (m_version m) (Some (time_of m)) (m_changeset m) (m_uid m) (Some (ix (user_of m))) (Some (negb (m_deleted m))).
Definition enc_way (ix : str -> Z) (w : sway) : pway :=
  PWay (Some (m_id (sw_meta w))) (map (fun t => ix (fst t)) (sw_tags w)) (map (fun t => ix (snd t)) (sw_tags w))
       (Some (enc_info ix (sw_meta w))) (deltas (sw_nodes w)).
Definition enc_rel (ix : str -> Z) (r : srel) : prel :=
  PRel (Some (m_id (sr_meta r))) (map (fun t => ix (fst t)) (sr_tags r)) (map (fun t => ix (snd t)) (sr_tags r))
       (Some (enc_info ix (sr_meta r))) (map (fun m => ix (mem_role m)) (sr_members r))
       (deltas (map mem_id (sr_members r))) (map (fun m => type_code (mem_type m)) (sr_members r)).
Definition enc_tags (ix : str -> Z) (t : tags) : list (Z * Z) := map (fun kv => (ix (fst kv), ix (snd kv))) t.
Definition lat_of (n : snode) : Z := match sn_latlon n with Some p => fst p | None => 0 end.
Definition lon_of (n : snode) : Z := match sn_latlon n with Some p => snd p | None => 0 end.
Definition enc_dense (ix : str -> Z) (ns : list snode) : dense_nodes :=
  let ms := map sn_meta ns in
  DenseNodes (deltas (map m_id ms))
    (Some (DenseInfo (map (fun m => unwrap_or (m_version m) 0) ms) (deltas (map time_of ms))
             (deltas (map (fun m => unwrap_or (m_changeset m) 0) ms))
             (deltas (map (fun m => unwrap_or (m_uid m) 0) ms))
             (deltas (map (fun m => ix (user_of m)) ms)) (map (fun m => negb (m_deleted m)) ms)))
    (deltas (map lat_of ns)) (deltas (map lon_of ns))
    (column (map (fun n => enc_tags ix (sn_tags n)) ns)).

(** A block for objects of one kind. *)
Inductive kind_list := KNodes (ns : list snode) | KWays (ws : list sway) | KRels (rs : list srel).
Definition objs_of (k : kind_list) : list sobj :=
  match k with KNodes ns => map SNode ns | KWays ws => map SWay ws | KRels rs => map SRel rs end.
Definition enc_group (k : kind_list) : pgroup :=
  let ix := idx (objs_of k) in
  match k with
  | KNodes ns => PGroup [] (Some (enc_dense ix ns)) [] [] []
  | KWays ws => PGroup [] None (map (enc_way ix) ws) [] []
  | KRels rs => PGroup [] None [] (map (enc_rel ix) rs) []
  end.
Definition enc_block (k : kind_list) : pblock :=
  PBlock (Some (raw_table (objs_of k))) [enc_group k] None None None None.

(** ** What can be encoded *)
Definition id62 (x : Z) : Prop := - 2^62 <= x <= 2^62 - 1.
Definition enc_meta_ok (m : meta) : Prop := meta_supported m /\ opt_is valid_str (m_user m).
Definition tags_ok (t : tags) : Prop := Forall (fun kv => valid_str (fst kv) /\ valid_str (snd kv)) t.
Definition node_ok (n : snode) : Prop :=
  enc_meta_ok (sn_meta n) /\ id62 (m_id (sn_meta n)) /\
  opt_is (fun t => exists s, t = EpochNumber s /\ 0 <= s < 2^31) (m_timestamp (sn_meta n)) /\
  opt_is (fun v => v < 2^31 - 1) (m_uid (sn_meta n)) /\
  opt_is (fun p => in_i32 (fst p) /\ in_i32 (snd p)) (sn_latlon n) /\ tags_ok (sn_tags n).
Definition way_ok (w : sway) : Prop :=
  enc_meta_ok (sw_meta w) /\ tags_ok (sw_tags w) /\ Forall id62 (sw_nodes w).
Definition rel_ok (r : srel) : Prop :=
  enc_meta_ok (sr_meta r) /\ tags_ok (sr_tags r) /\ Forall id62 (map mem_id (sr_members r)) /\
  Forall valid_str (map mem_role (sr_members r)).
(** Objects of one kind, and not so many strings that an index leaves 31 bits. *)
Definition kind_ok (k : kind_list) : Prop :=
  Z.of_nat (length (table (objs_of k))) < 2^31 /\
  match k with
  | KNodes ns => Forall node_ok ns
  | KWays ws => ws <> [] /\ Forall way_ok ws
  | KRels rs => rs <> [] /\ Forall rel_ok rs
  end.

(** ** Encoded blocks follow the format *)

Lemma user_valid m : enc_meta_ok m -> valid_str (user_of m).
Proof. intros (_ & u & E & H). unfold user_of. now rewrite E. Qed.

Lemma tag_strings_valid t : tags_ok t -> Forall valid_str (tag_strings t).
Proof.
  intros H. unfold tag_strings. induction H as [|[k v] t (H1 & H2) _ IH]; [constructor|].
  cbn. constructor; [easy|]. constructor; easy.
Qed.

Lemma table_valid k : kind_ok k -> Forall valid_str (table (objs_of k)).
Proof.
  intros (_ & H). constructor; [constructor|].
  assert (A : forall o, In o (objs_of k) -> Forall valid_str (obj_strings o)).
  { intros o Ho. destruct k as [ns|ws|rs]; cbn [objs_of] in Ho; apply in_map_iff in Ho as (x & <- & Hx); unfold obj_strings; cbn [s_meta s_tags].
    - rewrite Forall_forall in H. destruct (H _ Hx) as (M & _ & _ & _ & _ & T).
      constructor; [now apply user_valid|]. rewrite app_nil_r. now apply tag_strings_valid.
    - destruct H as (_ & H). rewrite Forall_forall in H. destruct (H _ Hx) as (M & T & _).
      constructor; [now apply user_valid|]. rewrite app_nil_r. now apply tag_strings_valid.
    - destruct H as (_ & H). rewrite Forall_forall in H. destruct (H _ Hx) as (M & T & _ & R).
      constructor; [now apply user_valid|]. apply Forall_app. split; [now apply tag_strings_valid|easy]. }
  induction (objs_of k) as [|o l IH]; cbn [flat_map]; [constructor|].
  apply Forall_app. split; [apply A; now left|]. apply IH. intros o' Ho'. apply A. now right.
Qed.

Section Indexes.
  Variable objs : list sobj.
  Hypothesis Hv : Forall valid_str (table objs).
  Hypothesis Hl : Z.of_nat (length (table objs)) < 2^31.

  Lemma idx_range s : 1 <= idx objs s.
  Proof.
    unfold idx. assert (0 <= index_of s (flat_map obj_strings objs)); [|lia].
    induction (flat_map obj_strings objs) as [|x l IH]; cbn [index_of]; [lia|]. destruct (str_eqb s x); lia.
  Qed.
  Lemma idx_at o s : In o objs -> In s (obj_strings o) -> string_at (raw_table objs) (idx objs s) s /\ idx objs s < 2^31.
  Proof.
    intros Ho Hs. assert (In s (flat_map obj_strings objs)) as H by (apply in_flat_map; eauto).
    apply index_of_ok in H as ((H1 & H2) & H3). unfold idx. unfold table in Hl. cbn [length] in Hl.
    split; [|lia]. split; [lia|].
    assert (valid_str s) by (rewrite Forall_forall in Hv; apply Hv; right; apply in_flat_map; eauto).
    split; [easy|]. unfold raw_table. rewrite nth_error_map. unfold table.
    replace (Z.to_nat (1 + index_of s (flat_map obj_strings objs))) with (S (Z.to_nat (index_of s (flat_map obj_strings objs)))) by lia.
    match goal with |- option_map _ (nth_error (?a :: ?l) (S ?n)) = _ => change (nth_error (a :: l) (S n)) with (nth_error l n) end.
    now rewrite H3.
  Qed.
  Lemma user_at o : In o objs -> string_at (raw_table objs) (idx objs (user_of (s_meta o))) (user_of (s_meta o))
    /\ idx objs (user_of (s_meta o)) < 2^31.
  Proof. intros H. apply (idx_at o); [easy|]. now left. Qed.
  Lemma tags_in o k v : In (k, v) (s_tags o) -> In k (obj_strings o) /\ In v (obj_strings o).
  Proof.
    intros H. assert (In k (tag_strings (s_tags o)) /\ In v (tag_strings (s_tags o))) as (H1 & H2).
    { unfold tag_strings. split; apply in_flat_map; exists (k, v); (split; [easy|]); cbn; auto. }
    split; right; apply in_or_app; now left.
  Qed.
  Lemma tags_enc o : In o objs -> tags_at (raw_table objs) (enc_tags (idx objs) (s_tags o)) (s_tags o).
  Proof.
    intros Ho. unfold tags_at, enc_tags.
    assert (A : forall t, incl t (s_tags o) -> Forall2 (fun p t => string_at (raw_table objs) (fst p) (fst t) /\
        string_at (raw_table objs) (snd p) (snd t)) (map (fun kv => (idx objs (fst kv), idx objs (snd kv))) t) t).
    { induction t as [|[k v] t IH]; intros Hi; cbn [map]; constructor.
      - destruct (tags_in o k v) as (H1 & H2); [apply Hi; now left|].
        split; now apply (idx_at o).
      - apply IH. intros x Hx. apply Hi. right. exact Hx. }
    apply A. apply incl_refl.
  Qed.
End Indexes.

Lemma combine_map {A B C} (f : A -> B) (g : A -> C) l : combine (map f l) (map g l) = map (fun x => (f x, g x)) l.
Proof. induction l as [|x l IH]; cbn; congruence. Qed.

Lemma time_of_ok m : meta_supported m -> m_timestamp m = Some (EpochNumber (time_of m)) /\ in_i64 (time_of m).
Proof. intros [_ _ (t & E & s & -> & H) _ _]. unfold time_of. now rewrite E. Qed.

Lemma params_default objs gs : params_supported (PBlock objs gs None None None None).
Proof.
  split; cbn.
  - now exists 1.
  - exists 0. unfold in_i32. lia.
  - exists 0. unfold in_i32. lia.
  - easy.
Qed.

Lemma info_enc b raw ix m : date_gran_of b = 1000 -> enc_meta_ok m -> string_at raw (ix (user_of m)) (user_of m) ->
  info_is b raw (Some (enc_info ix m)) m.
Proof.
  intros Hd (M & u & Eu & Hu) Hs. destruct (time_of_ok _ M) as (Et & _).
  destruct M as [_ (v & E1 & _) _ (c & E2 & _) (uid & E3 & _)].
  exists (enc_info ix m), (time_of m), (user_of m), (ix (user_of m)). cbn.
  rewrite Hd. split; [easy|]. split; [easy|]. split; [congruence|]. split; [easy|].
  split; [exists (time_of m); split; [easy|lia]|].
  split; [easy|]. split; [congruence|]. split; [easy|]. split; [congruence|]. split; [easy|].
  split; [unfold user_of; now rewrite Eu|]. split; [exact Hs|]. now destruct (m_deleted m).
Qed.

Lemma way_enc b objs w : date_gran_of b = 1000 -> Forall valid_str (table objs) ->
  Z.of_nat (length (table objs)) < 2^31 -> In (SWay w) objs -> way_ok w ->
  way_is b (raw_table objs) (enc_way (idx objs) w) w.
Proof.
  intros Hd Hv Hl Hi (M & T & N). repeat split; cbn [enc_way pw_id pw_info pw_keys pw_vals pw_refs].
  - apply info_enc; try assumption. apply (user_at objs Hv Hl (SWay w)); assumption.
  - now rewrite !map_length.
  - rewrite combine_map. exact (tags_enc objs Hv Hl (SWay w) Hi).
  - now rewrite deltas_length.
  - intros i x H. symmetry. now apply deltas_sum.
Qed.

Lemma rel_enc b objs r : date_gran_of b = 1000 -> Forall valid_str (table objs) ->
  Z.of_nat (length (table objs)) < 2^31 -> In (SRel r) objs -> rel_ok r ->
  rel_is b (raw_table objs) (enc_rel (idx objs) r) r.
Proof.
  intros Hd Hv Hl Hi (M & T & N & R). repeat split; cbn [enc_rel pr_id pr_info pr_keys pr_vals pr_types pr_memids pr_roles].
  - apply info_enc; try assumption. apply (user_at objs Hv Hl (SRel r)); assumption.
  - now rewrite !map_length.
  - rewrite combine_map. exact (tags_enc objs Hv Hl (SRel r) Hi).
  - now rewrite deltas_length.
  - intros i x H. symmetry. now apply deltas_sum.
  - assert (A : forall l, incl l (sr_members r) -> Forall2 (string_at (raw_table objs)) (map (fun m => idx objs (mem_role m)) l) (map mem_role l)).
    { induction l as [|m l IH]; intros Hincl; cbn [map]; constructor.
      - apply (idx_at objs Hv Hl (SRel r)); [easy|]. right. apply in_or_app. right.
        cbn. apply in_map. apply Hincl. now left.
      - apply IH. intros x Hx. apply Hincl. now right. }
    apply A. apply incl_refl.
Qed.

Lemma good_enc ix t : (forall s, 1 <= ix s) -> good_run (enc_tags ix t).
Proof.
  intros H. unfold good_run, enc_tags. induction t as [|kv t IH]; cbn [map]; constructor; [|exact IH].
  cbn. specialize (H (fst kv)). lia.
Qed.

Lemma nth_map {A B} (f : A -> B) l i x : nth_error l i = Some x -> nth_error (map f l) i = Some (f x).
Proof. intros H. now rewrite nth_error_map, H. Qed.

Lemma dense_enc b ns : let objs := map SNode ns in
  gran_of b = 100 -> lat_off_of b = 0 -> lon_off_of b = 0 -> date_gran_of b = 1000 ->
  Forall valid_str (table objs) -> Z.of_nat (length (table objs)) < 2^31 -> Forall node_ok ns ->
  dense_is b (raw_table objs) (enc_dense (idx objs) ns) ns.
Proof.
  intros objs Hg Hla Hlo Hd Hv Hl Hn. unfold enc_dense.
  eexists _, (map (fun n => enc_tags (idx objs) (sn_tags n)) ns).
  cbn [dn_info dn_keys_vals dn_id dn_lat dn_lon di_version di_timestamp di_changeset di_uid di_user_sid di_visible].
  split; [reflexivity|]. split; [reflexivity|].
  cbn [dn_info dn_keys_vals dn_id dn_lat dn_lon di_version di_timestamp di_changeset di_uid di_user_sid di_visible].
  rewrite !deltas_length, !map_length.
  split.
  { apply Forall_forall. intros r Hr. apply in_map_iff in Hr as (n & <- & _). apply good_enc. apply idx_range. }
  repeat (split; [reflexivity|]). split; [right; reflexivity|].
  intros i n Hi. pose proof (nth_Forall _ _ _ _ Hn Hi) as (M & _ & _ & _ & (p & Ep & _) & _).
  destruct (time_of_ok _ (proj1 M)) as (Et & _).
  destruct M as ([_ (v & E1 & _) _ (c & E2 & _) (uid & E3 & _)] & u & E4 & _).
  assert (Ho : In (SNode n) objs) by (apply in_map; eapply nth_error_In; eassumption).
  assert (Hm : nth_error (map sn_meta ns) i = Some (sn_meta n)) by now apply nth_map.
  split; cbn [dn_id dn_lat dn_lon di_version di_timestamp di_changeset di_uid di_user_sid di_visible].
  - symmetry. apply deltas_sum. now apply nth_map.
  - exists (fst p), (snd p). rewrite Ep. split; [now destruct p|]. unfold coord_is. rewrite Hg, Hla, Hlo.
    rewrite (deltas_sum _ i (fst p)), (deltas_sum _ i (snd p)).
    + lia.
    + rewrite (nth_map _ _ _ _ Hi). unfold lon_of. now rewrite Ep.
    + rewrite (nth_map _ _ _ _ Hi). unfold lat_of. now rewrite Ep.
  - eexists. split; [apply nth_map; exact Hi|]. exact (tags_enc objs Hv Hl (SNode n) Ho).
  - exists v. split; [|easy]. rewrite (nth_map _ _ _ _ Hm). now rewrite E1.
  - exists (time_of (sn_meta n)). split; [easy|]. rewrite Hd. rewrite (deltas_sum _ i (time_of (sn_meta n))); [lia|].
    now apply nth_map.
  - rewrite E2. f_equal. symmetry. apply deltas_sum. rewrite (nth_map _ _ _ _ Hm). now rewrite E2.
  - rewrite E3. f_equal. symmetry. apply deltas_sum. rewrite (nth_map _ _ _ _ Hm). now rewrite E3.
  - exists u. split; [easy|]. rewrite (deltas_sum _ i (idx objs (user_of (sn_meta n)))) by now rewrite (nth_map _ _ _ _ Hm).
    assert (Eu : u = user_of (sn_meta n)) by (unfold user_of; rewrite E4; reflexivity). rewrite Eu.
    exact (proj1 (user_at objs Hv Hl (SNode n) Ho)).
  - rewrite (nth_map _ _ _ _ Hm). now rewrite negb_involutive.
Qed.

Theorem enc_block_is k : kind_ok k -> block_is (enc_block k) (objs_of k).
Proof.
  intros H. pose proof (table_valid _ H) as Hv. destruct H as (Hl & H).
  exists (raw_table (objs_of k)), [objs_of k]. split; [reflexivity|]. split.
  { unfold text_table, raw_table. apply Forall_forall. intros b Hb. apply in_map_iff in Hb as (s & <- & Hs).
    exists s. split; [|easy]. rewrite Forall_forall in Hv. now apply Hv. }
  split; [|cbn; now rewrite app_nil_r]. constructor; [|constructor].
  assert (D : date_gran_of (enc_block k) = 1000) by reflexivity.
  destruct k as [ns|ws|rs]; cbn [objs_of] in *.
  - constructor. apply dense_enc; try assumption; reflexivity.
  - destruct H as (H1 & H2). constructor; [destruct ws; [contradiction|discriminate]|].
    assert (A : forall l, incl l ws -> Forall2 (way_is (enc_block (KWays ws)) (raw_table (map SWay ws))) (map (enc_way (idx (map SWay ws))) l) l).
    { rewrite Forall_forall in H2. induction l as [|w l IH]; intros Hi; cbn [map]; constructor.
      - apply way_enc; try assumption; [apply in_map|apply H2]; apply Hi; left; reflexivity.
      - apply IH. intros x Hx. apply Hi. right. exact Hx. }
    apply A. apply incl_refl.
  - destruct H as (H1 & H2). constructor; [destruct rs; [contradiction|discriminate]|].
    assert (A : forall l, incl l rs -> Forall2 (rel_is (enc_block (KRels rs)) (raw_table (map SRel rs))) (map (enc_rel (idx (map SRel rs))) l) l).
    { rewrite Forall_forall in H2. induction l as [|w l IH]; intros Hi; cbn [map]; constructor.
      - apply rel_enc; try assumption; [apply in_map|apply H2]; apply Hi; left; reflexivity.
      - apply IH. intros x Hx. apply Hi. right. exact Hx. }
    apply A. apply incl_refl.
Qed.

Lemma id62_i64 l : Forall id62 l -> Forall in_i64 l.
Proof. apply Forall_impl. unfold id62, in_i64. lia. Qed.

Theorem enc_block_supported k : kind_ok k -> block_supported (enc_block k) (objs_of k).
Proof.
  intros H. pose proof (table_valid _ H) as Hv. destruct H as (Hl & H). split; [apply params_default|].
  exists (enc_group k). split; [reflexivity|]. destruct k as [ns|ws|rs]; unfold group_supported; cbn [enc_group pg_dense pg_ways pg_rels objs_of] in *.
  - intros di i n Hi Hn. rewrite nth_error_map in Hn. destruct (nth_error ns i) as [n'|] eqn:En; [|easy].
    cbn in Hn. injection Hn as ->. pose proof (nth_Forall _ _ _ _ H En) as (M & _ & T & U & (p & Ep & Hp) & _).
    cbn [enc_dense dn_info] in Hi. injection Hi as <-.
    assert (Ho : In (SNode n) (map SNode ns)) by (apply in_map; eapply nth_error_In; eassumption).
    assert (Hm : nth_error (map sn_meta ns) i = Some (sn_meta n)) by now apply nth_map.
    assert (Ela : sum_to i (dn_lat (enc_dense (idx (map SNode ns)) ns)) = fst p).
    { apply deltas_sum. rewrite (nth_map _ _ _ _ En). unfold lat_of. now rewrite Ep. }
    assert (Elo : sum_to i (dn_lon (enc_dense (idx (map SNode ns)) ns)) = snd p).
    { apply deltas_sum. rewrite (nth_map _ _ _ _ En). unfold lon_of. now rewrite Ep. }
    split.
    + apply M.
    + exact T.
    + exact U.
    + cbn [di_user_sid]. rewrite (deltas_sum _ i (idx (map SNode ns) (user_of (sn_meta n)))) by now rewrite (nth_map _ _ _ _ Hm).
      exact (proj2 (user_at _ Hv Hl (SNode n) Ho)).
    + exists p. split; [exact Ep|exact Hp].
    + rewrite Ela, Elo. exact Hp.
    + rewrite Ela, Elo. change (gran_of _) with 100. unfold in_i32 in Hp. lia.
  - destruct H as (_ & H). split; [|split; [constructor|]].
    + apply Forall_forall. intros x Hx. apply in_map_iff in Hx as (w & <- & _). eexists. split; [reflexivity|]. discriminate.
    + apply Forall_forall. intros x Hx. apply in_map_iff in Hx as (w & <- & Hw). rewrite Forall_forall in H.
      destruct (H _ Hw) as (M & _ & N). split; [apply M|]. apply id62_i64; exact N.
  - destruct H as (_ & H). split; [constructor|split].
    + apply Forall_forall. intros x Hx. apply in_map_iff in Hx as (w & <- & _). eexists. split; [reflexivity|]. discriminate.
    + apply Forall_forall. intros x Hx. apply in_map_iff in Hx as (w & <- & Hw). rewrite Forall_forall in H.
      destruct (H _ Hw) as (M & _ & N & _). split; [apply M|]. apply id62_i64; exact N.
Qed.

(** Encoded blocks consist of values their fields can hold. *)
Lemma Forall_map_iff {A B} (P : B -> Prop) (f : A -> B) l : Forall P (map f l) <-> Forall (fun x => P (f x)) l.
Proof. split; induction l; intros H; constructor; inv H; auto. Qed.

Lemma deltas_i64 l : Forall id62 l -> Forall in_i64 (deltas l).
Proof.
  intros H. apply (Forall_impl (P := fun x => - 2^63 <= x <= 2^63 - 1)).
  - unfold in_i64. lia.
  - apply (deltas_range (- 2^62) (2^62 - 1)); try lia. exact H.
Qed.
Lemma deltas_small l : Forall (fun x => 0 <= x < 2^31) l -> Forall in_i32 (deltas l).
Proof.
  intros H. apply (Forall_impl (P := fun x => - 2^31 <= x <= 2^31 - 1)).
  - unfold in_i32. lia.
  - apply (deltas_range 0 (2^31 - 1)); try lia. eapply Forall_impl; [|exact H]. cbn. lia.
Qed.

Lemma info_ok ix m : meta_supported m -> 1 <= ix (user_of m) < 2^31 -> ok_info (enc_info ix m).
Proof.
  intros M Hi. destruct (time_of_ok _ M) as (_ & T). destruct M as [_ (v & E1 & V) _ (c & E2 & C) (u & E3 & U)].
  unfold ok_info. cbn. rewrite E1, E2, E3. cbn. unfold in_i32, in_i64, in_u32 in *. lia.
Qed.

Lemma tag_idx objs o kv : Forall valid_str (table objs) -> Z.of_nat (length (table objs)) < 2^31 ->
  In o objs -> In kv (s_tags o) -> 1 <= idx objs (fst kv) < 2^31 /\ 1 <= idx objs (snd kv) < 2^31.
Proof.
  intros Hv Hl Ho Hk. destruct kv as [k v]. destruct (tags_in o k v Hk) as (H1 & H2).
  destruct (idx_at objs Hv Hl o k Ho H1) as (_ & H3). destruct (idx_at objs Hv Hl o v Ho H2) as (_ & H4).
  pose proof (idx_range objs k). pose proof (idx_range objs v). cbn [fst snd]. lia.
Qed.

Lemma column_range ix t : (forall kv, In kv t -> 1 <= ix (fst kv) < 2^31 /\ 1 <= ix (snd kv) < 2^31) ->
  Forall in_i32 (run (enc_tags ix t)).
Proof.
  intros H. unfold run. apply Forall_app. split; [|constructor; [unfold in_i32; lia|constructor]].
  unfold enc_tags. induction t as [|kv t IH]; cbn [map flat_map]; [constructor|].
  destruct (H kv) as (H1 & H2); [now left|]. cbn [fst snd app].
  constructor; [unfold in_i32; lia|]. constructor; [unfold in_i32; lia|].
  apply IH. intros x Hx. apply H. now right.
Qed.

Theorem enc_block_ok k : kind_ok k -> ok_block (enc_block k).
Proof.
  intros H. pose proof (table_valid _ H) as Hv. destruct H as (Hl & H).
  split; [|cbn; repeat split]. constructor; [|constructor].
  destruct k as [ns|ws|rs]; cbn [enc_group objs_of] in *; unfold ok_group;
    cbn [pg_nodes pg_dense pg_ways pg_rels pg_changesets opt_all].
  - split; [constructor|]. split; [|repeat split; constructor].
    assert (Ho : forall n, In n ns -> In (SNode n) (map SNode ns)) by (intros n; apply in_map).
    rewrite Forall_forall in H.
    unfold ok_dense, enc_dense. cbn [dn_id dn_info dn_lat dn_lon dn_keys_vals opt_all].
    split.
    { apply deltas_i64. rewrite !Forall_map_iff, Forall_forall. intros n Hn. destruct (H _ Hn) as (_ & I & _); exact I. }
    split.
    { unfold ok_dense_info. cbn [di_version di_timestamp di_changeset di_uid di_user_sid].
      split.
      { rewrite !Forall_map_iff, Forall_forall. intros n Hn.
        destruct (H _ Hn) as (([_ (v & -> & V) _ _ _] & _) & _). cbn. unfold in_i32. lia. }
      split.
      { apply deltas_i64. rewrite !Forall_map_iff, Forall_forall. intros n Hn.
        destruct (H _ Hn) as (_ & _ & (t & E & s & -> & T) & _). unfold time_of, id62. rewrite E. lia. }
      split.
      { apply deltas_i64. rewrite !Forall_map_iff, Forall_forall. intros n Hn.
        destruct (H _ Hn) as (([_ _ _ (v & -> & V) _] & _) & _). cbn. unfold id62, in_u32 in *. lia. }
      split.
      { apply deltas_small. rewrite !Forall_map_iff, Forall_forall. intros n Hn.
        destruct (H _ Hn) as (([_ _ _ _ (v & -> & V)] & _) & _). cbn. lia. }
      apply deltas_small. rewrite !Forall_map_iff, Forall_forall. intros n Hn.
      destruct (user_at _ Hv Hl _ (Ho _ Hn)) as (_ & I). cbn [s_meta] in I.
      pose proof (idx_range (map SNode ns) (user_of (sn_meta n))). lia. }
    split.
    { apply deltas_i64. rewrite !Forall_map_iff, Forall_forall. intros n Hn.
      destruct (H _ Hn) as (_ & _ & _ & _ & (p & E & P) & _). unfold lat_of, id62. rewrite E. unfold in_i32 in P. lia. }
    split.
    { apply deltas_i64. rewrite !Forall_map_iff, Forall_forall. intros n Hn.
      destruct (H _ Hn) as (_ & _ & _ & _ & (p & E & P) & _). unfold lon_of, id62. rewrite E. unfold in_i32 in P. lia. }
    apply Forall_forall. intros x Hx. unfold column in Hx. apply in_flat_map in Hx as (r & Hr & Hx).
    apply in_map_iff in Hr as (n & <- & Hn).
    assert (F : Forall in_i32 (run (enc_tags (idx (map SNode ns)) (sn_tags n)))).
    { apply column_range. intros kv Hkv. apply (tag_idx _ (SNode n)); auto. }
    rewrite Forall_forall in F. apply F. exact Hx.
  - destruct H as (_ & H). split; [constructor|]. split; [exact I|]. split; [|repeat split; constructor].
    assert (Ho : forall n, In n ws -> In (SWay n) (map SWay ws)) by (intros n; apply in_map).
    rewrite Forall_forall in H. rewrite Forall_map_iff, Forall_forall. intros w Hw.
    destruct (H _ Hw) as (M & T & N). unfold ok_way, enc_way. cbn [pw_id pw_keys pw_vals pw_info pw_refs opt_all].
    split; [apply M|]. split; [|split; [|split]].
    + rewrite Forall_map_iff, Forall_forall. intros kv Hk. destruct (tag_idx _ (SWay w) kv Hv Hl) as (I & _); auto. unfold in_u32. lia.
    + rewrite Forall_map_iff, Forall_forall. intros kv Hk. destruct (tag_idx _ (SWay w) kv Hv Hl) as (_ & I); auto. unfold in_u32. lia.
    + apply info_ok; [apply M|]. destruct (user_at _ Hv Hl _ (Ho _ Hw)) as (_ & I). cbn [s_meta] in I.
      pose proof (idx_range (map SWay ws) (user_of (sw_meta w))). lia.
    + apply deltas_i64. exact N.
  - destruct H as (_ & H). split; [constructor|]. split; [exact I|]. split; [constructor|]. split; [|constructor].
    assert (Ho : forall n, In n rs -> In (SRel n) (map SRel rs)) by (intros n; apply in_map).
    rewrite Forall_forall in H. rewrite Forall_map_iff, Forall_forall. intros w Hw.
    destruct (H _ Hw) as (M & T & N & R). unfold ok_rel, enc_rel. cbn [pr_id pr_keys pr_vals pr_info pr_roles pr_memids pr_types opt_all].
    split; [apply M|]. split; [|split; [|split; [|split; [|split]]]].
    + rewrite Forall_map_iff, Forall_forall. intros kv Hk. destruct (tag_idx _ (SRel w) kv Hv Hl) as (I & _); auto. unfold in_u32. lia.
    + rewrite Forall_map_iff, Forall_forall. intros kv Hk. destruct (tag_idx _ (SRel w) kv Hv Hl) as (_ & I); auto. unfold in_u32. lia.
    + apply info_ok; [apply M|]. destruct (user_at _ Hv Hl _ (Ho _ Hw)) as (_ & I). cbn [s_meta] in I.
      pose proof (idx_range (map SRel rs) (user_of (sr_meta w))). lia.
    + rewrite Forall_map_iff, Forall_forall. intros m Hm.
      destruct (idx_at _ Hv Hl (SRel w) (mem_role m) (Ho _ Hw)) as (_ & I).
      { right. apply in_or_app. right. cbn. now apply in_map. }
      pose proof (idx_range (map SRel rs) (mem_role m)). unfold in_i32. lia.
    + apply deltas_i64. exact N.
    + rewrite Forall_map_iff, Forall_forall. intros m _. destruct (mem_type m); unfold in_i32; cbn; lia.
Qed.

Lemma enc_block_init k : kind_ok k -> pb_init (enc_block k) = true.
Proof.
  intros _. destruct k as [ns|ws|rs]; cbn [enc_block enc_group pb_init pb_strings pb_groups is_some andb forallb];
    unfold pg_init; cbn [pg_nodes pg_dense pg_ways pg_rels pg_changesets forallb andb]; rewrite ?andb_true_r.
  - reflexivity.
  - rewrite forallb_forall. intros x Hx. apply in_map_iff in Hx as (w & <- & _). reflexivity.
  - rewrite forallb_forall. intros x Hx. apply in_map_iff in Hx as (w & <- & _). reflexivity.
Qed.
