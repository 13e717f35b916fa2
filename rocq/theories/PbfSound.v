(** Every block that a reader decodes is decoded as SpecPbfRead says. *)
From Coq Require Import String ZArith List Bool Lia.
From Verif Require Import Base Utf8 Timestamp Obj PbWire PbMsg PbMsgFacts PbfRead SpecPbf SpecPbfRead PbfFacts PbfExact PbRange.
Import ListNotations.
Open Scope Z_scope.

(** ** Widths *)

Lemma as_i64_cong x : exists k, as_i64 x = x + k * 2^64.
Proof. unfold as_i64. exists (- ((x + 2^63) / 2^64)). rewrite Z.mod_eq by lia. lia. Qed.
Lemma as_i32_cong x : exists k, as_i32 x = x + k * 2^32.
Proof. unfold as_i32. exists (- ((x + 2^31) / 2^32)). rewrite Z.mod_eq by lia. lia. Qed.
Lemma as_u32_ok x : asu32 x (as_u32 x).
Proof.
  unfold asu32, as_u32, in_u32. split.
  - pose proof (Z.mod_pos_bound x (2^32)). lia.
  - exists (- (x / 2^32)). rewrite Z.mod_eq by lia. lia.
Qed.
Lemma as64_of chk x y : wrapped64 chk x y -> as64 chk x y.
Proof. intros (-> & H). split; [apply as_i64_range|]. split; [apply as_i64_cong|exact H]. Qed.
Lemma as32_of chk x y : wrapped32 chk x y -> as32 chk x y.
Proof. intros (-> & H). split; [apply as_i32_range|]. split; [apply as_i32_cong|exact H]. Qed.

Lemma arith32_range chk z y : arith_i32 chk z = Ret y -> in_i32 y.
Proof. intros H. apply arith32_cases in H as (-> & _). apply as_i32_range. Qed.

(** Two numbers of 32 bits that differ by a multiple of 2^32 are equal. *)
Lemma i32_unique x y k : in_i32 x -> in_i32 y -> y = x + k * 2^32 -> y = x.
Proof. unfold in_i32. intros H1 H2 E. assert (k = 0) by lia. lia. Qed.

Lemma internal_read chk gran off raw x : in_i32 raw -> dense_internal chk gran off raw = Ret x ->
  pos_read gran off raw x.
Proof.
  intros Hr H. unfold dense_internal, COORD_PRECISION_NANOS in H. cbv zeta in H.
  destruct (arith_i32 chk (raw * Z.quot gran 100)) as [y|] eqn:E; [|discriminate]. cbn [obind] in H.
  split; [exact Hr|]. split; [now apply arith32_range in H|]. split; [|discriminate].
  set (k := Z.quot gran 100) in *. set (j := Z.quot off 100) in *.
  apply arith32_cases in E as (-> & _). apply arith32_cases in H as (-> & _).
  destruct (as_i32_cong (raw * k)) as (a & Ea). destruct (as_i32_cong j) as (c & Ec). rewrite Ea, Ec.
  destruct (as_i32_cong (raw * k + a * 2^32 + (j + c * 2^32))) as (e & ->). exists (a + c + e). lia.
Qed.

(** ** Dense nodes *)

Lemma core_read chk b dg raw user d di runs i m ts ps la lo :
  dg = Z.quot (date_gran_of b) 1000 ->
  (forall j u, user j = Ret u -> string_at raw j u) ->
  dense_core chk (gran_of b) (lat_off_of b) (lon_off_of b) dg user d di i m la lo ->
  nth_error runs i = Some ps -> tags_at raw ps ts ->
  dense_read chk b raw d di runs i (SN m ts (Some (la, lo))).
Proof.
  intros Hdg Hu C Hp Ht. destruct C as [C1 C9 C2 C3 C4 C5 C6 C7 C8 C10].
  split; cbn [sn_meta sn_tags sn_latlon].
  - now apply as64_of.
  - exists la, lo. split; [reflexivity|]. split; eapply internal_read; try eassumption; apply C9.
  - exists ps. now split.
  - destruct C4 as (v & E1 & E2). exists v, (as_u32 v). split; [exact E1|]. split; [exact E2|]. apply as_u32_ok.
  - destruct C5 as (t & E1 & ->). eexists. split; [exact E1|]. rewrite <- Hdg. split; [apply as_i32_range|].
    split; [apply as_i32_cong|discriminate].
  - eexists. split; [exact C6|]. apply as_u32_ok.
  - eexists. split; [exact C7|]. apply as_u32_ok.
  - destruct C8 as (u & sid & E1 & E2 & E3). exists u, sid. split; [exact E1|]. split; [now apply as32_of|]. now apply Hu.
  - exact C10.
Qed.

Lemma s_dense_read chk b raw st d os : s_strings raw = Ret st -> ok_dense d ->
  s_decode_dense chk (gran_of b) (lat_off_of b) (lon_off_of b) (Z.quot (date_gran_of b) 1000) st d = Ret os ->
  dense_objs chk b raw d os.
Proof.
  intros Hs (_ & _ & Hla & Hlo & _) H. unfold s_decode_dense in H.
  eapply (s_dense_loop_inv chk _ _ _ _ st d _ Hla Hlo _ _ _ _ []) in H;
    [|apply dense_inv0|constructor|reflexivity|reflexivity].
  destruct H as (runs & lft & Hk & Hg & Lr & Lo & D). cbn [app] in *.
  split; [exact Lo|]. exists (unwrap_or (dn_info d) di0), runs. split; [reflexivity|].
  split; [split; [exact Hg|left; now exists lft]|]. split; [congruence|].
  intros i o Ho. destruct (D i o Ho) as (m & ts & la & lo & ps & -> & C & Hp & Ht). cbn [Nat.add] in *.
  eexists. split; [reflexivity|]. eapply core_read; [reflexivity| |exact C|exact Hp|].
  - intros j u Hj. eapply string_at_table; eassumption.
  - eapply tags_at_inv; eassumption.
Qed.

Lemma a_dense_read chk b raw st d os : s_strings raw = Ret st -> ok_dense d ->
  a_decode_dense chk (gran_of b) (lat_off_of b) (lon_off_of b) (Z.quot (date_gran_of b) 1000) (map Some st) d = Ret os ->
  dense_objs chk b raw d (map a_view os).
Proof.
  intros Hs (_ & _ & Hla & Hlo & _) H. unfold a_decode_dense in H.
  eapply (a_dense_loop_inv chk _ _ _ _ (map Some st) d _ Hla Hlo _ _ _ _ []) in H;
    [|apply dense_inv0|constructor|right; split; reflexivity].
  destruct H as (runs & lft & Hg & Lo & Hk & D). cbn [app] in *.
  split; [now rewrite map_length|]. exists (unwrap_or (dn_info d) di0).
  assert (U : forall j u, (do o <- at_z (map Some st) j; unwrap o) = Ret u -> string_at raw j u).
  { intros j u Hj. rewrite at_z_user in Hj. eapply string_at_table; eassumption. }
  destruct (dn_keys_vals d) as [|k0 kv] eqn:Ek.
  - exists (repeat [] (length os)). split; [reflexivity|]. rewrite map_length, repeat_length.
    split; [|split; [reflexivity|]].
    { split; [|right; split; [reflexivity|]]; apply Forall_forall; intros x Hx; apply repeat_spec in Hx; subst; [constructor|reflexivity]. }
    intros i o Ho. rewrite nth_error_map in Ho. destruct (nth_error os i) as [a|] eqn:Ea; [|discriminate].
    cbn in Ho. injection Ho as <-. destruct (D i a Ea) as (m & ts & la & lo & -> & C & T). cbn [Nat.add] in *.
    rewrite Ek in T. subst ts. cbn [a_view an_meta an_tags an_latlon]. eexists. split; [reflexivity|].
    eapply (core_read chk b _ raw _ d _ _ i m [] []); [reflexivity|exact U|exact C| |constructor].
    apply nth_error_repeat. apply nth_error_Some. congruence.
  - destruct Hk as [Hk|(Lr & Hk)]; [discriminate|].
    exists runs. split; [reflexivity|]. rewrite map_length.
    split; [split; [exact Hg|left; now exists lft]|]. split; [congruence|].
    intros i o Ho. rewrite nth_error_map in Ho. destruct (nth_error os i) as [a|] eqn:Ea; [|discriminate].
    cbn in Ho. injection Ho as <-. destruct (D i a Ea) as (m & ts & la & lo & -> & C & T). cbn [Nat.add] in *.
    rewrite Ek in T. destruct T as (ps & l & Hp & Ht & ->). cbn [a_view an_meta an_tags an_latlon].
    eexists. split; [reflexivity|]. eapply core_read; [reflexivity|exact U|exact C|exact Hp|].
    rewrite a_tags_some in Ht. eapply tags_at_inv; eassumption.
Qed.

(** ** Ways and relations *)

Lemma meta_read_of raw del user o id m :
  (forall j u, user j = Ret u -> string_at raw j u) ->
  (forall f x, del (Some f) = Ret x -> x = negb f) ->
  obj_meta del user o id = Ret m -> m_id m = id /\ meta_read raw o m.
Proof.
  intros Hu Hd H. apply obj_meta_inv in H as (ts & cs & uid & sid & name & v & dl & H). cbv zeta in H.
  destruct H as (E1 & E2 & E3 & E4 & E5 & E6 & E7 & ->). split; [reflexivity|].
  destruct o as [inf|]; [|discriminate E1]. cbn [unwrap_or] in *.
  exists inf, v, ts, cs, uid, sid, (as_u32 v), (as_u32 cs), (as_u32 uid), name.
  cbn [m_version m_timestamp m_changeset m_uid m_user m_deleted].
  repeat match goal with |- _ /\ _ => split end; try reflexivity; try assumption; try apply as_u32_ok;
    try (apply Hu; assumption).
  intros f Hf. rewrite Hf in E7. now apply Hd.
Qed.

Lemma s_del f x : s_deleted (Some f) = Ret x -> x = negb f.
Proof. unfold s_deleted. cbn. congruence. Qed.
Lemma a_del f x : a_deleted (Some f) = Ret x -> x = negb f.
Proof. unfold a_deleted. cbn. congruence. Qed.

Lemma s_tags_of_inv raw st keys vals ts : s_strings raw = Ret st -> s_tags_of st keys vals = Ret ts ->
  length keys = length vals /\ tags_at raw (combine keys vals) ts.
Proof.
  intros Hs H. unfold s_tags_of, assert in H. destruct (Nat.eqb _ _) eqn:E; [|discriminate]. cbn [obind] in H.
  apply Nat.eqb_eq in E. split; [exact E|]. eapply tags_at_inv; eassumption.
Qed.

Lemma a_tags_of_inv chk raw st keys vals ts : s_strings raw = Ret st -> a_tags_of chk (map Some st) keys vals = Ret ts ->
  tags_at raw (combine keys vals) ts.
Proof.
  intros Hs H. unfold a_tags_of in H. destruct (a_tags_at _ _) as [l|] eqn:E; [|discriminate]. cbn [obind] in H.
  destruct (a_key_rest _ _ _ _) as [u|]; [|discriminate]. injection H as <-.
  eapply tags_at_inv; [exact Hs|]. now rewrite <- a_tags_some.
Qed.

Lemma zip_some_inv st : forall types ids roles l, zip_members (at_z (map Some st)) types ids roles = Ret l ->
  zip_members (at_z st) types ids roles = Ret (filter_map keep_member l).
Proof.
  induction types as [|t types IH]; intros ids roles l H; cbn [zip_members] in *.
  - injection H as <-. reflexivity.
  - destruct ids as [|id ids]; [injection H as <-; reflexivity|].
    destruct roles as [|r roles]; [injection H as <-; reflexivity|].
    destruct (member_type t) as [ty|]; [|discriminate]. cbn [obind] in *.
    binds H. injection H as <-. rewrite (IH _ _ _ E0).
    destruct (at_z st r) as [x|] eqn:Ex.
    + rewrite (at_z_some _ _ _ Ex) in E. injection E as <-. reflexivity.
    + rewrite (at_z_some_panic _ _ Ex) in E. discriminate.
Qed.

Lemma members_read chk raw st types memids roles ids l :
  s_strings raw = Ret st -> Forall in_i64 memids ->
  sum_refs chk memids = Ret ids -> zip_members (at_z st) types ids roles = Ret l ->
  length l = Nat.min (length types) (Nat.min (length memids) (length roles)) /\
  forall i m, nth_error l i = Some m ->
      nth_error types i = Some (type_code (mem_type m)) /\
      as64 chk (sum_to i memids) (mem_id m) /\
      exists x, nth_error roles i = Some x /\ string_at raw x (mem_role m).
Proof.
  intros Hs Hm H1 H2. apply (sum_refs_inv _ _ _ Hm) in H1 as (L1 & D1).
  apply zip_members_inv in H2 as (L2 & D2). rewrite L1 in L2. split; [exact L2|].
  intros i [[t id] r] Hi. destruct (D2 _ _ _ _ Hi) as (E1 & E2 & x & E3 & E4). cbn [mem_type mem_id mem_role fst snd].
  split; [exact E1|]. split; [apply as64_of; now apply D1|]. exists x. split; [exact E3|]. eapply string_at_table; eassumption.
Qed.

Lemma s_way_read chk raw st p o : s_strings raw = Ret st -> ok_way p -> s_decode_way chk st p = Ret o ->
  way_read chk raw p o /\ length (pw_keys p) = length (pw_vals p).
Proof.
  intros Hs (_ & _ & _ & _ & Hr) H. unfold s_decode_way in H.
  destruct (pw_id p) as [id|] eqn:Ei; [|discriminate]. cbn [unwrap obind] in H. binds H. injection H as <-.
  apply (s_tags_of_inv _ _ _ _ _ Hs) in E as (L & T).
  apply (meta_read_of raw) in E1 as (I & M); [|intros j u; now apply string_at_table|apply s_del].
  apply (sum_refs_inv _ _ _ Hr) in E0 as (L1 & D1).
  split; [|exact L]. eexists. split; [reflexivity|]. cbn [sw_meta sw_tags sw_nodes].
  split; [congruence|]. split; [exact M|]. split; [exact T|]. split; [exact L1|].
  intros i x Hx. apply as64_of. now apply D1.
Qed.

Lemma a_way_read chk raw st p o : s_strings raw = Ret st -> ok_way p -> is_some (pw_id p) = true ->
  a_decode_way chk (map Some st) p = Ret o -> way_read chk raw p (a_view o).
Proof.
  intros Hs (_ & _ & _ & _ & Hr) Hi H. unfold a_decode_way in H.
  destruct (pw_id p) as [id|] eqn:Ei; [|discriminate]. cbn [unwrap_or] in H. binds H. injection H as <-.
  apply (a_tags_of_inv _ _ _ _ _ _ Hs) in E.
  apply (meta_read_of raw) in E1 as (I & M); [|intros j u; rewrite at_z_user; now apply string_at_table|apply a_del].
  apply (sum_refs_inv _ _ _ Hr) in E0 as (L1 & D1).
  eexists. split; [reflexivity|]. cbn [aw_meta aw_tags aw_nodes sw_meta sw_tags sw_nodes].
  split; [congruence|]. split; [exact M|]. split; [exact E|]. split; [exact L1|].
  intros i x Hx. apply as64_of. now apply D1.
Qed.

Lemma s_rel_read chk raw st p o : s_strings raw = Ret st -> ok_rel p -> is_some (pr_id p) = true ->
  s_decode_rel chk st p = Ret o -> rel_read chk raw p o /\ length (pr_keys p) = length (pr_vals p).
Proof.
  intros Hs (_ & _ & _ & _ & _ & Hm & _) Hi H. unfold s_decode_rel in H.
  destruct (pr_id p) as [id|] eqn:Ei; [|discriminate]. cbn [unwrap_or] in H. binds H. injection H as <-.
  apply (s_tags_of_inv _ _ _ _ _ Hs) in E as (L & T).
  apply (meta_read_of raw) in E3 as (I & M); [|intros j u; now apply string_at_table|apply s_del].
  destruct (members_read _ _ _ _ _ _ _ _ Hs Hm E0 E1) as (L1 & D1).
  split; [|exact L]. eexists. split; [reflexivity|]. cbn [sr_meta sr_tags sr_members].
  split; [congruence|]. split; [exact M|]. split; [exact T|]. split; [exact L1|exact D1].
Qed.

Lemma a_rel_read chk raw st p o : s_strings raw = Ret st -> ok_rel p -> is_some (pr_id p) = true ->
  a_decode_rel chk (map Some st) p = Ret o -> rel_read chk raw p (a_view o).
Proof.
  intros Hs (_ & _ & _ & _ & _ & Hm & _) Hi H. unfold a_decode_rel in H.
  destruct (pr_id p) as [id|] eqn:Ei; [|discriminate]. cbn [unwrap_or] in H. binds H. injection H as <-.
  apply (a_tags_of_inv _ _ _ _ _ _ Hs) in E.
  apply (meta_read_of raw) in E3 as (I & M); [|intros j u; rewrite at_z_user; now apply string_at_table|apply a_del].
  apply zip_some_inv in E1. destruct (members_read _ _ _ _ _ _ _ _ Hs Hm E0 E1) as (L1 & D1).
  eexists. split; [reflexivity|]. cbn [ar_meta ar_tags ar_members sr_meta sr_tags sr_members].
  split; [congruence|]. split; [exact M|]. split; [exact E|]. split; [exact L1|exact D1].
Qed.

(** ** Groups and blocks *)

(** What a parsed block guarantees. *)
Lemma parsed_init rt data b : parse_block rt data = Some b -> pb_init b = true.
Proof.
  unfold parse_block, checked_init. destruct (merge rt (pb_step rt) pb0 data) as [m|]; [|discriminate].
  destruct (pb_init m) eqn:E; [|discriminate]. congruence.
Qed.

Lemma init_group b g : pb_init b = true -> In g (pb_groups b) ->
  Forall (fun p => is_some (pw_id p) = true) (pg_ways g) /\ Forall (fun p => is_some (pr_id p) = true) (pg_rels g).
Proof.
  unfold pb_init. intros H Hg. apply andb_true_iff in H as (_ & H). rewrite forallb_forall in H. apply H in Hg.
  unfold pg_init in Hg. repeat (apply andb_true_iff in Hg as (Hg & ?)).
  split; apply Forall_forall; intros p Hp;
    match goal with F : forallb _ (_ g) = true |- _ => rewrite forallb_forall in F; apply F in Hp; exact Hp end.
Qed.

Lemma Forall2_with {A B} (P : A -> Prop) (R Q : A -> B -> Prop) l l' :
  (forall a b, P a -> R a b -> Q a b) -> Forall P l -> Forall2 R l l' -> Forall2 Q l l'.
Proof.
  intros H F G. induction G; constructor.
  - apply H; [now inv F|assumption].
  - apply IHG. now inv F.
Qed.

Lemma Forall2_with2 {A B} (P P' : A -> Prop) (R Q : A -> B -> Prop) l l' :
  (forall a b, P a -> P' a -> R a b -> Q a b) -> Forall P l -> Forall P' l -> Forall2 R l l' -> Forall2 Q l l'.
Proof.
  intros H F F' G. induction G; constructor.
  - apply H; [now inv F|now inv F'|assumption].
  - apply IHG; [now inv F|now inv F'].
Qed.

Lemma Forall2_map_r {A B C} (R : A -> C -> Prop) (f : B -> C) l l' : Forall2 (fun a b => R a (f b)) l l' -> Forall2 R l (map f l').
Proof. intros H. induction H; constructor; auto. Qed.

Lemma a_block_groups chk b raw st os : s_strings raw = Ret st -> pb_strings b = Some raw ->
  a_decode_block chk b = Ret os ->
  exists ls, os = concat ls /\
    Forall2 (fun g l => a_decode_group chk (gran_of b) (lat_off_of b) (lon_off_of b) (date_gran_of b) (map Some st) g = Ret l)
      (pb_groups b) ls.
Proof.
  intros Hs Hr H. unfold a_decode_block in H. rewrite Hr in H. cbn [unwrap_or] in H.
  rewrite (a_strings_some _ _ Hs) in H. cbv zeta in H.
  destruct (omapM _ (pb_groups b)) as [ls|] eqn:E; [|discriminate]. cbn [obind] in H. injection H as <-.
  exists ls. split; [reflexivity|]. now apply omapM_inv in E.
Qed.

Lemma Forall2_nth {A B} (R : A -> B -> Prop) l l' k a : Forall2 R l l' -> nth_error l k = Some a ->
  exists b, nth_error l' k = Some b /\ R a b.
Proof.
  intros H. revert k; induction H as [|x y l l' Hxy _ IH]; intros [|k] E; try discriminate.
  - injection E as ->. now exists y.
  - now apply IH.
Qed.
