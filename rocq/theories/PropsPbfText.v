(** Properties C71 and C73: PBF strings that are not text, and the largest user id. *)
From Coq Require Import String ZArith List Bool Lia.
From Verif Require Import Base Utf8 Timestamp Obj ObjFacts SpecObj PbWire PbMsg PbMsgFacts PbfRead SpecPbf SpecPbfRead
  PbfFacts PbfExact PbfEncode PbRange PbfSound PropsPbfFile PropsPbfBlock.
Import ListNotations.
Open Scope Z_scope.

(** ** C71 *)

(** Specification: bytes that are the UTF-8 form of some text. *)
Definition is_text (bs : bytes) : Prop := exists s, valid_str s /\ bs = utf8 s.
(** Entry [i] of the table exists but is not text. *)
Definition not_text (raw : string_table) (i : Z) : Prop :=
  exists bs, 0 <= i /\ nth_error raw (Z.to_nat i) = Some bs /\ ~ is_text bs.

(** [ts] are the tags of those index pairs both of whose strings are text. *)
Inductive text_tags (raw : string_table) : list (Z * Z) -> list (str * str) -> Prop :=
| tt_nil : text_tags raw [] []
| tt_keep k v s t ps ts : string_at raw k s -> string_at raw v t -> text_tags raw ps ts ->
    text_tags raw ((k, v) :: ps) ((s, t) :: ts)
| tt_drop k v ps ts : not_text raw k \/ not_text raw v -> text_tags raw ps ts ->
    text_tags raw ((k, v) :: ps) ts.
(** The same for members: type code, id and index of the role. *)
Inductive text_members (raw : string_table) : list (Z * Z * Z) -> list member -> Prop :=
| tm_nil : text_members raw [] []
| tm_keep ty i r s ps ms : string_at raw r s -> text_members raw ps ms ->
    text_members raw ((type_code ty, i, r) :: ps) ((ty, i, s) :: ms)
| tm_drop ty i r ps ms : not_text raw r -> text_members raw ps ms ->
    text_members raw ((type_code ty, i, r) :: ps) ms.

Lemma bytes_eq_dec (a b : bytes) : {a = b} + {a <> b}.
Proof. exact (list_eq_dec Z.eq_dec a b). Qed.

(** The String reader: a block with a string that is not text gives no objects. *)
Theorem C71_string : forall chk flt b raw os, pb_strings b = Some raw -> ~ text_table raw ->
  s_decode_block chk flt b = Ret os -> os = [].
Proof.
  intros chk flt b raw os Hr Ht H. unfold s_decode_block in H. rewrite Hr in H. cbn [unwrap obind] in H.
  destruct (pb_groups b) as [|g [|]]; try discriminate.
  assert (E : s_strings raw = Panic).
  { destruct (s_strings raw) as [st|] eqn:E; [|reflexivity]. exfalso. apply Ht. apply s_strings_inv in E as (E & <-).
    unfold text_table. apply Forall_map. eapply Forall_impl; [|exact E]. intros s Hs. now exists s. }
  unfold s_decode_group in H. rewrite E in H. cbn [obind] in H.
  destruct (nonempty (pg_nodes g) && f_nodes flt); [discriminate|].
  destruct (is_some (pg_dense g) && f_nodes flt); [discriminate|].
  destruct (nonempty (pg_ways g) && f_ways flt); [discriminate|].
  destruct (nonempty (pg_rels g) && f_rels flt); [discriminate|]. now injection H as <-.
Qed.
Print Assumptions C71_string.

Lemma a_at raw i o : at_z (a_strings raw) i = Ret o ->
  match o with Some s => string_at raw i s | None => not_text raw i end.
Proof.
  intros H. apply at_z_inv in H as (H1 & H2). unfold a_strings in H2. rewrite nth_error_map in H2.
  destruct (nth_error raw (Z.to_nat i)) as [bs|] eqn:E; [|discriminate]. cbn in H2. injection H2 as H2. destruct o as [s|].
  - apply utf8_decode_inv in H2 as (H2 & ->). now split.
  - exists bs. split; [exact H1|]. split; [exact E|]. intros (s & Hs & ->). rewrite utf8_decode_encode in H2 by exact Hs. discriminate.
Qed.

Lemma a_tag_text raw p o : a_tag_at (a_strings raw) p = Ret o ->
  match o with
  | Some t => string_at raw (fst p) (fst t) /\ string_at raw (snd p) (snd t)
  | None => not_text raw (fst p) \/ not_text raw (snd p)
  end.
Proof.
  intros H. unfold a_tag_at in H. binds H. injection H as <-.
  match goal with E : at_z _ (fst p) = Ret ?k, E' : at_z _ (snd p) = Ret ?v |- _ => apply a_at in E, E'; destruct k, v; cbn; auto end.
Qed.

Lemma a_tags_text raw ps l : Forall2 (fun p o => a_tag_at (a_strings raw) p = Ret o) ps l ->
  text_tags raw ps (filter_map (fun o => o) l).
Proof.
  induction 1 as [|[k v] o ps l H _ IH]; [constructor|]. apply a_tag_text in H. cbn [filter_map].
  destruct o as [[s t]|]; [now constructor|now constructor].
Qed.

Lemma a_tags_of_text chk raw ks vs l : a_tags_of chk (a_strings raw) ks vs = Ret l -> text_tags raw (combine ks vs) l.
Proof.
  intros H. unfold a_tags_of in H. binds H. injection H as <-. unfold a_tags_at in E. binds E. injection E as <-.
  match goal with H : omapM _ _ = Ret _ |- _ => apply omapM_inv in H; now apply a_tags_text end.
Qed.

Lemma a_members_text raw ts : forall ids rs l, zip_members (at_z (a_strings raw)) ts ids rs = Ret l ->
  text_members raw (combine (combine ts ids) rs) (filter_map keep_member l).
Proof.
  induction ts as [|t ts IH]; intros ids rs l H; cbn [zip_members combine] in *; [injection H as <-; constructor|].
  destruct ids as [|i ids]; [injection H as <-; constructor|]. destruct rs as [|r rs]; [injection H as <-; constructor|].
  destruct (member_type t) as [ty|] eqn:Et; [|discriminate]. cbn [obind] in H.
  binds H. injection H as <-. specialize (IH _ _ _ E0). apply a_at in E.
  assert (T : t = type_code ty).
  { unfold member_type in Et. destruct (t =? 0) eqn:E1; [injection Et as <-; cbn; lia|].
    destruct (t =? 1) eqn:E2; [injection Et as <-; cbn; lia|]. destruct (t =? 2) eqn:E3; [|discriminate]. injection Et as <-; cbn; lia. }
  subst t. cbn [filter_map keep_member combine]. destruct a as [s|]; now constructor.
Qed.

(** User names are always text. *)
Lemma a_user raw i u : (do o <- at_z (a_strings raw) i; unwrap o) = Ret u -> string_at raw i u.
Proof.
  intros H. binds H. apply a_at in E. destruct a; [|discriminate]. cbn in H. injection H as <-. exact E.
Qed.

Definition name_is_text (raw : string_table) (o : option info) (m : meta) : Prop :=
  exists inf sid u, o = Some inf /\ i_user_sid inf = Some sid /\ m_user m = Some u /\ string_at raw sid u.

Lemma a_meta_user raw o id m : obj_meta a_deleted (fun i => do o <- at_z (a_strings raw) i; unwrap o) o id = Ret m -> name_is_text raw o m.
Proof.
  intros H. unfold obj_meta in H. destruct o as [inf|]; [|discriminate]. cbn [unwrap_or] in H. cbv zeta in H.
  destruct (i_timestamp inf) as [a|]; [|discriminate]. cbn [unwrap obind] in H.
  destruct (a_deleted (i_visible inf)); [|discriminate]. cbn [obind] in H.
  destruct (i_changeset inf); [|discriminate]. cbn [unwrap obind] in H.
  destruct (i_uid inf); [|discriminate]. cbn [unwrap obind] in H.
  destruct (i_user_sid inf) as [sid|] eqn:Es; [|discriminate]. cbn [unwrap obind] in H.
  match type of H with obind ?e _ = _ => destruct e as [u|] eqn:Eu; [|discriminate] end. apply a_user in Eu. cbn [obind] in H.
  destruct (i_version inf); [|discriminate]. cbn [unwrap obind] in H. injection H as <-.
  exists inf, sid, u. split; [reflexivity|]. split; [exact Es|]. split; [reflexivity|exact Eu].
Qed.

Lemma per_group_arc chk b raw ao (P : pgroup -> list sobj -> Prop) : pb_strings b = Some raw ->
  (forall g l, In g (pb_groups b) -> a_decode_group chk (granularity b) (lat_offset b) (lon_offset b) (date_granularity b) (a_strings raw) g = Ret l ->
     P g (map a_view l)) ->
  a_decode_block chk b = Ret ao -> per_group b (map a_view ao) P.
Proof.
  intros Hr HP H. unfold a_decode_block in H. rewrite Hr in H. cbn [unwrap_or] in H. cbv zeta in H. binds H. injection H as <-.
  apply omapM_inv in E. match type of E with Forall2 _ _ ?x => exists (map (map a_view) x) end. split; [apply concat_map|].
  apply Forall2_map_r. eapply Forall2_both with (P := fun g => In g (pb_groups b)); [|intros g Hg; exact Hg|exact E].
  intros g l Hg Hl. now apply HP.
Qed.

Lemma dense_loop_all {A} (P : nat -> A -> Prop) step : (forall i s o s', step i s = Ret (o, s') -> P i o) ->
  forall n i s l, dense_loop step n i s = Ret l -> forall k o, nth_error l k = Some o -> P (i + k)%nat o.
Proof.
  intros HP. induction n as [|n IH]; intros i s l H k o Hk; cbn [dense_loop] in H.
  - injection H as <-. now destruct k.
  - destruct (step i s) as [[o' s']|] eqn:E; [|discriminate]. cbn [obind] in H.
    destruct (dense_loop step n (S i) s') as [r|] eqn:Er; [|discriminate]. cbn [obind] in H. injection H as <-.
    destruct k as [|k]; cbn [nth_error] in Hk.
    + injection Hk as <-. rewrite Nat.add_0_r. eapply HP. exact E.
    + replace (i + S k)%nat with (S i + k)%nat by lia. eapply IH; eassumption.
Qed.


(** What the Arc reader does instead: every other text is kept, tags and members with
    a string that is not text are left out.  User names are always text. *)
Theorem C71_arc_partial : forall rt data chk b raw ao, parse_block rt data = Some b -> pb_strings b = Some raw ->
  a_decode_block chk b = Ret ao ->
  per_group b (map a_view ao) (fun g l =>
    (forall d, pg_dense g = Some d -> exists runs, runs_of (dn_keys_vals d) runs /\
       Forall2 (fun ps o => text_tags raw ps (s_tags o)) runs l /\
       Forall (fun o => exists sid u, m_user (s_meta o) = Some u /\ string_at raw sid u) l) /\
    (pg_dense g = None -> pg_ways g <> [] ->
       Forall2 (fun p o => text_tags raw (combine (pw_keys p) (pw_vals p)) (s_tags o) /\ name_is_text raw (pw_info p) (s_meta o))
         (pg_ways g) l) /\
    (pg_dense g = None -> pg_ways g = [] ->
       Forall2 (fun p o => text_tags raw (combine (pr_keys p) (pr_vals p)) (s_tags o) /\ name_is_text raw (pr_info p) (s_meta o) /\
         exists ids, length ids = length (pr_memids p) /\
           (forall i x, nth_error ids i = Some x -> as64 chk (sum_to i (pr_memids p)) x) /\
           exists r, o = SRel r /\ text_members raw (combine (combine (pr_types p) ids) (pr_roles p)) (sr_members r))
         (pg_rels g) l)).
Proof.
  intros rt data chk b raw ao Hp Hr H. pose proof (block_range _ _ _ Hp) as (Ok & _).
  eapply per_group_arc; [exact Hr| |exact H]. clear H. intros g l Hg H.
  rewrite Forall_forall in Ok. destruct (Ok g Hg) as (_ & Od & _ & Or & _). clear Ok.
  unfold a_decode_group in H. cbv zeta in H. destruct (nonempty (pg_nodes g)); [discriminate|]. split; [|split].
  - intros d Hd. rewrite Hd in H, Od. cbn [is_some unwrap_or] in H. unfold a_decode_dense in H. destruct Od as (_ & _ & Hla & Hlo & _).
    eapply (a_dense_loop_inv chk _ _ _ _ (a_strings raw) d _ Hla Hlo _ _ _ _ []) in H;
      [|apply dense_inv0|constructor|right; split; reflexivity].
    destruct H as (runs & lft & Hgd & Lo & Hk & D). cbn [app] in *.
    assert (HU : Forall (fun o => exists sid u, m_user (s_meta o) = Some u /\ string_at raw sid u) (map a_view l)).
    { apply Forall_map. apply Forall_forall. intros o Ho. apply In_nth_error in Ho as (i & Ho).
      destruct (D i o Ho) as (m & ts & la & lo & -> & C & _). destruct (dc_user _ _ _ _ _ _ _ _ _ _ _ _ C) as (u & sid & E1 & _ & E2).
      exists sid, u. split; [exact E1|]. now apply a_user. }
    destruct (dn_keys_vals d) as [|k0 kv] eqn:Ek.
    + exists (repeat [] (length l)). split; [|split; [|exact HU]].
      { split; [|right; split; [reflexivity|]]; apply Forall_forall; intros x Hx; apply repeat_spec in Hx; subst; [constructor|reflexivity]. }
      apply Forall2_map_r.
      assert (G : forall o, In o l -> s_tags (a_view o) = []).
      { intros o Ho. apply In_nth_error in Ho as (i & Ho). destruct (D i o Ho) as (m & ts & la & lo & -> & C & T). rewrite Ek in T. subst ts. reflexivity. }
      clear -G. induction l as [|o l IH]; cbn [repeat length]; constructor.
      * rewrite G by now left. constructor.
      * apply IH. intros o' Ho'. apply G. now right.
    + destruct Hk as [Hk|(Lr & Hk)]; [discriminate|]. exists runs. split; [split; [exact Hgd|left; now exists lft]|]. split; [|exact HU].
      apply Forall2_map_r.
      assert (G : forall i o, nth_error l i = Some o -> exists ps, nth_error runs i = Some ps /\ text_tags raw ps (s_tags (a_view o))).
      { intros i o Ho. destruct (D i o Ho) as (m & ts & la & lo & -> & C & T). rewrite Ek in T. destruct T as (ps & x & E1 & E2 & ->).
        exists ps. split; [exact E1|]. unfold a_tags_at in E2. binds E2. injection E2 as <-. apply omapM_inv in E. now apply a_tags_text. }
      assert (L : length runs = length l) by congruence. clear -G L. revert l L G. induction runs as [|ps runs IH]; intros [|o l] L G; try discriminate; constructor.
      * destruct (G 0%nat o eq_refl) as (ps' & E & T). injection E as <-. exact T.
      * apply IH; [now injection L|]. intros i o' Ho. exact (G (S i) o' Ho).
  - intros Hd Hw. rewrite Hd in H. cbn [is_some] in H.
    destruct (nonempty (pg_ways g)) eqn:N; [|destruct (pg_ways g); [contradiction|discriminate]].
    apply omapM_inv in H. apply Forall2_map_r. eapply Forall2_mono; [|exact H]. intros p o Ho. cbn beta in Ho. unfold a_decode_way in Ho.
    binds Ho. injection Ho as <-. split; [eapply a_tags_of_text; eassumption|]. eapply a_meta_user. eassumption.
  - intros Hd Hw. rewrite Hd, Hw in H. cbn [is_some nonempty] in H.
    destruct (pg_rels g) as [|r rs]; [discriminate|]. cbn [nonempty] in H.
    apply omapM_inv in H. apply Forall2_map_r. eapply Forall2_with; [|exact Or|exact H]. intros p o Hok Ho. unfold a_decode_rel in Ho.
    binds Ho. injection Ho as <-. split; [eapply a_tags_of_text; eassumption|]. split; [eapply a_meta_user; eassumption|].
    destruct Hok as (_ & _ & _ & _ & _ & Hm & _).
    match goal with E : sum_refs _ _ = Ret ?x |- _ => exists x; rename E into Es end.
    pose proof (sum_refs_inv _ _ _ Hm Es) as (L1 & D1). split; [exact L1|]. split.
    { intros i x Hx. apply as64_of. now apply D1. }
    eexists. split; [reflexivity|]. cbn [ar_members sr_members]. now apply a_members_text.
Qed.
Print Assumptions C71_arc_partial.

(** So such texts are lost without notice: for every string that is not text, a way
    with that string as a key is read without its tag by the Arc reader, and a relation
    with that string as a role without its member; the String reader panics on both. *)
Definition text_block (bs : bytes) (way : bool) : pblock :=
  PBlock (Some [[]; [117]; bs])
    [PGroup [] None
       (if way then [PWay (Some 7) [2] [1] (Some (Info (Some 1) (Some 5) (Some 3) (Some 4) (Some 1) (Some true))) [10; -1]] else [])
       (if way then [] else [PRel (Some 8) [] [] (Some (Info (Some 1) (Some 5) (Some 3) (Some 4) (Some 1) (Some true))) [2] [6] [0]])
       []]
    None None None None.
Theorem C71_arc_refuted : forall chk bs, ~ is_text bs ->
  let m := fun id => Meta id (Some 1) false (Some 3) (Some (EpochNumber 5)) (Some 4) (Some [117]) in
  forall way, message (text_block bs way) /\
    s_decode_block chk (OF true true true) (text_block bs way) = Panic /\
    a_decode_block chk (text_block bs way) = Ret (if way then [AWay (AW (m 7) [] [10; 9])] else [ARel (AR (m 8) [] [])]).
Proof.
  intros chk bs Hb m way. unfold m. clear m. split; [|split].
  - split; [|destruct way; reflexivity]. destruct way; cbv [text_block]; repeat (split || constructor); cbn; unfold in_i64, in_i32, in_u32; lia.
  - destruct (s_decode_block chk (OF true true true) (text_block bs way)) as [os|] eqn:E; [|reflexivity]. exfalso.
    assert (T : ~ text_table [[]; [117]; bs]).
    { intros T. apply Hb. unfold text_table in T. rewrite Forall_forall in T. destruct (T bs) as (s & Hs); [cbn; auto|]. now exists s. }
    assert (N : s_strings [[]; [117]; bs] = Panic).
    { destruct (s_strings _) as [st|] eqn:Es; [|reflexivity]. exfalso. apply T. apply s_strings_inv in Es as (Es & <-).
      unfold text_table. apply Forall_map. eapply Forall_impl; [|exact Es]. intros s Hs. now exists s. }
    unfold s_decode_block, text_block, s_decode_group in E. cbn [pb_strings unwrap obind pb_groups] in E. rewrite N in E.
    destruct way; discriminate E.
  - assert (D : utf8_decode bs = None).
    { destruct (utf8_decode bs) as [s|] eqn:E; [|reflexivity]. exfalso. apply utf8_decode_inv in E as (E1 & E2). apply Hb. now exists s. }
    assert (S : a_strings [[]; [117]; bs] = [Some []; Some [117]; None]).
    { unfold a_strings. cbn [map]. rewrite D. reflexivity. }
    unfold a_decode_block. destruct way; cbn [text_block pb_strings unwrap_or]; rewrite S; destruct chk as [[|] ? ? ?]; vm_compute; reflexivity.
Qed.
Print Assumptions C71_arc_refuted.
(** 0xFF occurs in no UTF-8 text. *)
Example C71_example : ~ is_text [255] /\
  (exists ao, parse_block ex_rt (ser_block (text_block [255] true)) = Some (text_block [255] true) /\ a_decode_block (plain true) (text_block [255] true) = Ret ao /\ length ao = 1%nat) /\
  exists os, s_decode_block (plain true) (OF true true true) ex_dense = Ret os /\ text_table [[]; [117]; [195; 188]] /\ length os = 2%nat.
Proof.
  split; [|split].
  - intros (s & Hs & E). assert (D : utf8_decode (utf8 s) = Some s) by now apply utf8_decode_encode. rewrite <- E in D. vm_compute in D. discriminate.
  - eexists. split; [vm_compute; reflexivity|]. split; [vm_compute; reflexivity|reflexivity].
  - eexists. split; [vm_compute; reflexivity|]. split; [|reflexivity].
    repeat constructor; [exists []|exists [117]|exists [252]]; (split; [repeat constructor; unfold scalar; cbn; lia|reflexivity]).
Qed.

(** ** C73 *)

(** User ids are 32-bit numbers.  A dense group in which the largest of them occurs
    is never decoded, by any reader of whole objects, whatever else is in it. *)
Lemma dense_meta_uid chk dg user di i s id m acc : dense_meta chk dg user di i s id = Ret (m, acc) -> m_uid m <> Some (2^31 - 1).
Proof.
  intros H. unfold dense_meta in H. binds H. injection H as <- <-. cbn [m_uid].
  match goal with E : assert _ = Ret _ |- _ => unfold assert in E; match type of E with (if ?c then _ else _) = _ => destruct c eqn:Hc; [|discriminate] end end.
  match goal with H : arith_i32 chk (_ + last_uid s) = Ret ?u |- _ => apply arith32_cases in H as (Eu & _); rename u into uu end.
  assert (R : in_i32 uu) by (rewrite Eu; apply as_i32_range). apply Z.ltb_lt in Hc. unfold in_i32 in R.
  intros X. injection X as X. unfold as_u32 in X.
  assert (Q : uu = 2^31 - 1 \/ uu = 2^31 - 1 - 2^32).
  { destruct (Z.lt_ge_cases uu 0) as [N|N].
    - right. rewrite <- (Z.mod_add uu 1) in X by lia. rewrite Z.mod_small in X by lia. lia.
    - left. rewrite Z.mod_small in X by lia. exact X. }
  lia.
Qed.

Lemma s_step_uid chk gran lato lono dg st d di i s o s' :
  s_dense_step chk gran lato lono dg st d di i s = Ret (o, s') -> m_uid (s_meta o) <> Some (2^31 - 1).
Proof. intros H. unfold s_dense_step in H. binds H. injection H as <- <-. eapply dense_meta_uid. eassumption. Qed.
Lemma a_step_uid chk gran lato lono dg st d di i s o s' :
  a_dense_step chk gran lato lono dg st d di i s = Ret (o, s') -> m_uid (s_meta (a_view o)) <> Some (2^31 - 1).
Proof. intros H. unfold a_dense_step in H. binds H. injection H as <- <-. eapply dense_meta_uid. eassumption. Qed.

Lemma nth_ex {A} (l : list A) i : (i < length l)%nat -> exists x, nth_error l i = Some x.
Proof. intros H. destruct (nth_error l i) eqn:E; [eauto|]. apply nth_error_None in E. lia. Qed.

Theorem C73_largest_refuted : forall rt data chk b g d di i,
  parse_block rt data = Some b -> In g (pb_groups b) -> pg_dense g = Some d -> dn_info d = Some di ->
  (i < length (dn_id d))%nat -> sum_to i (di_uid di) = 2^31 - 1 ->
  s_decode_block chk (OF true true true) b = Panic /\ a_decode_block chk b = Panic.
Proof.
  intros rt data chk b g d di i Hp Hg Hd Hi Hl Hu. pose proof (block_range _ _ _ Hp) as (Ok & _).
  rewrite Forall_forall in Ok. destruct (Ok g Hg) as (_ & Od & _). rewrite Hd in Od. destruct Od as (_ & _ & Hla & Hlo & _).
  assert (U : as_u32 (sum_to i (di_uid di)) = 2^31 - 1) by (rewrite Hu; reflexivity). split.
  - destruct (s_decode_block chk _ b) as [os|] eqn:E; [|reflexivity]. exfalso. unfold s_decode_block in E.
    destruct (pb_strings b) as [raw|]; [|discriminate]. cbn [unwrap obind] in E.
    destruct (pb_groups b) as [|g0 [|]]; try discriminate. destruct Hg as [->|[]]. unfold s_decode_group in E.
    cbn [f_nodes f_ways f_rels] in E. rewrite Hd, !andb_true_r in E. cbn [is_some unwrap_or] in E.
    destruct (nonempty (pg_nodes g)); [discriminate|]. destruct (s_strings raw) as [st|]; [|discriminate]. cbn [obind] in E.
    unfold s_decode_dense in E. rewrite Hi in E. cbn [unwrap_or] in E. pose proof E as E'.
    eapply (s_dense_loop_inv chk _ _ _ _ st d _ Hla Hlo _ _ _ _ []) in E; [|apply dense_inv0|constructor|reflexivity|reflexivity].
    destruct E as (runs & lft & _ & _ & _ & Lo & D). destruct (nth_ex os i) as (o & Ho); [lia|].
    pose proof (dense_loop_all (fun _ o => m_uid (s_meta o) <> Some (2^31 - 1)) _ (fun i s o s' => s_step_uid _ _ _ _ _ _ _ _ i s o s') _ _ _ _ E' _ _ Ho) as N.
    destruct (D i o Ho) as (m & ts & la & lo & ps & -> & C & _). apply N. cbn [s_meta sn_meta].
    rewrite (dc_uid _ _ _ _ _ _ _ _ _ _ _ _ C). cbn [Nat.add]. now rewrite U.
  - destruct (a_decode_block chk b) as [ao|] eqn:E; [|reflexivity]. exfalso. unfold a_decode_block in E. cbv zeta in E. binds E. clear E.
    apply omapM_inv in E0. revert Hg. induction E0 as [|g0 l0 gs ls E0 _ IH]; intros Hg; [contradiction|].
    destruct Hg as [->|Hg]; [|apply IH; [|exact Hg]; intros x Hx; apply Ok; now right]. clear IH. unfold a_decode_group in E0.
    rewrite Hd in E0. cbn [is_some unwrap_or] in E0. destruct (nonempty (pg_nodes g)); [discriminate|].
    unfold a_decode_dense in E0. rewrite Hi in E0. cbn [unwrap_or] in E0. pose proof E0 as E'.
    eapply (a_dense_loop_inv chk _ _ _ _ _ d _ Hla Hlo _ _ _ _ []) in E0; [|apply dense_inv0|constructor|right; split; reflexivity].
    destruct E0 as (runs & lft & _ & Lo & _ & D). destruct (nth_ex l0 i) as (o & Ho); [lia|].
    pose proof (dense_loop_all (fun _ o => m_uid (s_meta (a_view o)) <> Some (2^31 - 1)) _ (fun i s o s' => a_step_uid _ _ _ _ _ _ _ _ i s o s') _ _ _ _ E' _ _ Ho) as N.
    destruct (D i o Ho) as (m & ts & la & lo & -> & C & _). apply N. cbn [a_view s_meta sn_meta an_meta].
    rewrite (dc_uid _ _ _ _ _ _ _ _ _ _ _ _ C). cbn [Nat.add]. now rewrite U.
Qed.
Print Assumptions C73_largest_refuted.

(** Below it, and on ways and relations for every 32-bit number, the id is read:
    one dense node (one way) with user id [u]. *)
Definition uid_dense (u : Z) : pblock :=
  PBlock (Some [[]; [117]])
    [PGroup [] (Some (DenseNodes [7] (Some (DenseInfo [1] [5] [3] [u] [1] [])) [0] [0] [0])) [] [] []] None None None None.
Definition uid_way (u : Z) : pblock :=
  PBlock (Some [[]; [117]])
    [PGroup [] None [PWay (Some 7) [] [] (Some (Info (Some 1) (Some 5) (Some 3) (Some u) (Some 1) (Some true))) []] [] []] None None None None.
Theorem C73_others_partial : forall chk u, 0 <= u < 2^31 ->
  let m := Meta 7 (Some 1) false (Some 3) (Some (EpochNumber 5)) (Some u) (Some [117]) in
  message (uid_dense u) /\ message (uid_way u) /\
  (u < 2^31 - 1 -> s_decode_block chk (OF true true true) (uid_dense u) = Ret [SNode (SN m [] (Some (0, 0)))] /\
                   a_decode_block chk (uid_dense u) = Ret [ANode (AN m (Some []) (Some (0, 0)))]) /\
  s_decode_block chk (OF true true true) (uid_way u) = Ret [SWay (SW m [] [])] /\
  a_decode_block chk (uid_way u) = Ret [AWay (AW m [] [])].
Proof.
  intros chk u Hu m.
  assert (W : as_u32 u = u) by (unfold as_u32; apply Z.mod_small; lia).
  assert (A : arith_i32 chk (u + 0) = Ret u).
  { rewrite Z.add_0_r. unfold arith_i32. replace (in_i32b u) with true; [reflexivity|]. symmetry. apply in_i32b_iff. unfold in_i32. lia. }
  split; [|split; [|split; [|split]]].
  - split; [|reflexivity]. repeat (split || constructor); cbn; unfold in_i64, in_i32, in_u32; lia.
  - split; [|reflexivity]. repeat (split || constructor); cbn; unfold in_i64, in_i32, in_u32; lia.
  - intros Hl. apply Z.ltb_lt in Hl.
    assert (M : forall user, user 1 = Ret [117] -> dense_meta chk 1 user (DenseInfo [1] [5] [3] [u] [1] []) 0 (DS 0 0 0 0 0 0 0 [0]) 7 = Ret (m, (5, 3, u, 1))).
    { intros user E. unfold dense_meta.
      change (at_ (di_changeset _) 0) with (Ret 3). change (at_ (di_uid _) 0) with (Ret u). change (at_ (di_user_sid _) 0) with (Ret 1).
      change (at_ (di_timestamp _) 0) with (Ret 5). change (at_ (di_version _) 0) with (Ret 1). cbn [obind].
      change (last_changeset _) with 0. change (last_uid _) with 0. change (last_user_sid _) with 0. change (last_timestamp _) with 0.
      change (arith_i64 chk (3 + 0)) with (Ret 3). cbn [obind]. rewrite A. cbn [obind]. change (arith_i32 chk (1 + 0)) with (Ret 1). cbn [obind].
      change (arith_i32 chk (as_i32 5 + 0)) with (Ret 5). cbn [obind]. change (arith_i32 chk (5 * 1)) with (Ret 5). cbn [obind].
      unfold assert. rewrite Hl. cbn [obind]. rewrite E. cbn [obind]. rewrite W. reflexivity. }
    split.
    + transitivity (s_decode_dense chk 100 0 0 1 [[]; [117]] (DenseNodes [7] (Some (DenseInfo [1] [5] [3] [u] [1] [])) [0] [0] [0])); [reflexivity|].
      unfold s_decode_dense. cbn [dn_id length dense_loop dn_info unwrap_or dn_keys_vals]. unfold s_dense_step.
      lazy -[dense_meta at_z m].
      rewrite M by reflexivity. reflexivity.
    + transitivity (do l <- a_decode_dense chk 100 0 0 1 [Some []; Some [117]] (DenseNodes [7] (Some (DenseInfo [1] [5] [3] [u] [1] [])) [0] [0] [0]); Ret (l ++ [])).
      { unfold a_decode_block. cbn -[a_decode_dense]. change (Z.quot (date_granularity _) 1000) with 1. change (granularity _) with 100.
        change (lat_offset _) with 0. change (lon_offset _) with 0. destruct (a_decode_dense _ _ _ _ _ _ _); reflexivity. }
      unfold a_decode_dense. cbn [dn_id length dense_loop dn_info unwrap_or dn_keys_vals]. unfold a_dense_step.
      lazy -[dense_meta at_z m].
      rewrite M by reflexivity. reflexivity.
  - unfold s_decode_block. cbn -[as_u32]. unfold s_decode_way, obj_meta. cbn -[as_u32]. rewrite W. reflexivity.
  - unfold a_decode_block. cbn -[as_u32]. unfold a_decode_way, obj_meta. cbn -[as_u32]. rewrite W. reflexivity.
Qed.
Print Assumptions C73_others_partial.
Example C73_example : exists d di, parse_block ex_rt (ser_block (uid_dense (2^31 - 1))) = Some (uid_dense (2^31 - 1)) /\
  pb_groups (uid_dense (2^31 - 1)) = [PGroup [] (Some d) [] [] []] /\ dn_info d = Some di /\ length (dn_id d) = 1%nat /\
  sum_to 0 (di_uid di) = 2^31 - 1.
Proof. do 2 eexists. split; [vm_compute; reflexivity|]. repeat split. Qed.
