(** Facts about the changeset readers. *)
From Coq Require Import String ZArith List Bool Lia.
From Coq Require Import ZifyBool ZifyNat.
From Verif Require Import Base SpecNum Ints Timestamp Obj SpecObj ObjFacts SpecJson Changesets SpecChangeset.
Import ListNotations.
Open Scope Z_scope.

Lemma after_colon_spec s : after_colon s = if in_dec Z.eq_dec 58 s then Some (skipn (S (prefix_length s)) s) else None.
Proof.
  induction s as [|c s IH]; [reflexivity|]. cbn [after_colon prefix_length].
  destruct (Z.eqb_spec c 58) as [->|N].
  - destruct (in_dec Z.eq_dec 58 (58 :: s)) as [_|H]; [reflexivity|]. exfalso. apply H. now left.
  - rewrite IH. destruct (Z.eq_dec c 58); [contradiction|].
    destruct (in_dec Z.eq_dec 58 s) as [H|H], (in_dec Z.eq_dec 58 (c :: s)) as [H'|H']; try reflexivity; exfalso.
    + apply H'. now right.
    + destruct H' as [H'|H']; contradiction.
Qed.
Lemma local_name_part s : local_name s = local_part s.
Proof. unfold local_name, local_part. rewrite after_colon_spec. now destruct (in_dec Z.eq_dec 58 s). Qed.
Lemma local_is_eq s k : local_is s k = true <-> local_part s = lit k.
Proof. unfold local_is. rewrite local_name_part. apply str_eqb_eq. Qed.
Lemma local_is_neq s k : local_is s k = false <-> local_part s <> lit k.
Proof. unfold local_is. rewrite local_name_part. apply str_eqb_neq. Qed.

Definition has_err (l : list qattr) : bool :=
  existsb (fun a => match a with AErr => true | _ => false end) l.

Lemma has_err_proper l : has_err l = false <-> proper l.
Proof.
  unfold proper. induction l as [|a l IH]; cbn; [tauto|].
  destruct a; cbn; [split; [discriminate|tauto]|].
  rewrite IH. split; intros H; [intros [A|A]; [discriminate|tauto]|tauto].
Qed.

Lemma raw_attr_cons key raw l k :
  raw_attr (AOk key raw :: l) k = if local_is key k then Some raw else raw_attr l k.
Proof.
  cbn [raw_attr]. destruct (str_eq_dec (local_part key) (lit k)) as [E|E].
  - apply local_is_eq in E. now rewrite E.
  - apply local_is_neq in E. now rewrite E.
Qed.

Lemma raw_attr_absent l k : ~ In (lit k) (local_names l) -> raw_attr l k = None.
Proof.
  induction l as [|[|key raw] l IH]; intros H; [reflexivity|apply IH; exact H|].
  rewrite raw_attr_cons. unfold local_names in *. cbn [filter_map] in H. cbn [In] in H.
  destruct (local_is key k) eqn:E; [apply local_is_eq in E; tauto|]. apply IH. tauto.
Qed.

Section Facts.
Variable norm : str -> option str.

Definition orelse {A} (a b : option A) : option A := match a with Some _ => a | None => b end.

Lemma bool_text_eq raw :
  (if str_eqb raw (lit "true") then Some true else if str_eqb raw (lit "false") then Some false else None)
  = bool_text raw.
Proof.
  unfold bool_text. destruct (str_eq_dec raw (lit "true")) as [->|E]; [reflexivity|].
  apply str_eqb_neq in E. rewrite E.
  destruct (str_eq_dec raw (lit "false")) as [->|E2]; [reflexivity|].
  apply str_eqb_neq in E2. now rewrite E2.
Qed.

Definition merged (b : builder) (l : list qattr) : option builder :=
  match optional (value norm parse_u32) (raw_attr l "id"),
        optional norm (raw_attr l "created_at"),
        optional norm (raw_attr l "closed_at"),
        optional bool_text (raw_attr l "open"),
        optional (value norm parse_i64) (raw_attr l "uid"),
        optional norm (raw_attr l "user"),
        optional (value norm parse_u64) (raw_attr l "num_changes"),
        optional (value norm parse_u64) (raw_attr l "comments_count") with
  | Some id, Some created, Some closed, Some open, Some uid, Some user, Some n, Some c =>
      Some (B (orelse id (b_id b)) (orelse (opt_map ISOString created) (b_created b))
              (orelse (opt_map ISOString closed) (b_closed b)) (orelse open (b_open b))
              (orelse uid (b_uid b)) (orelse user (b_user b)) (orelse n (b_num_changes b))
              (orelse c (b_comments_count b)))
  | _, _, _, _, _, _, _, _ => None
  end.

Ltac nextopt := match goal with |- context [match optional ?p ?o with _ => _ end] =>
  let z := fresh "z" in destruct (optional p o) as [z|] end.

Lemma take_attrs_spec l : forall b, distinct l ->
  take_attrs norm b l = if has_err l then None else merged b l.
Proof.
  induction l as [|[|key raw] l IH]; intros b Hd.
  - cbn. unfold merged. cbn. destruct b; reflexivity.
  - reflexivity.
  - cbn [take_attrs has_err existsb orb].
    change (existsb (fun a => match a with AErr => true | AOk _ _ => false end) l) with (has_err l).
    unfold distinct, local_names in Hd. cbn [filter_map] in Hd. inversion Hd as [|? ? Hni Hnd]; subst.
    fold (local_names l) in *. specialize (fun b => IH b Hnd).
    unfold merged. rewrite !raw_attr_cons. unfold set_attr.
    Ltac finish IH Ha l :=
      cbn [opt_bind]; cbn [opt_map];
      first [rewrite IH; unfold merged; rewrite Ha; cbn; reflexivity
            |cbn; destruct (has_err l); [reflexivity|]; repeat nextopt; reflexivity].
    Ltac start E Hni l nm Ha :=
      apply local_is_eq in E; unfold local_is; rewrite ?local_name_part; rewrite E in *;
      pose proof (raw_attr_absent l nm Hni) as Ha; cbn [str_eqb lit].
    destruct (local_is key "id") eqn:E1.
    { start E1 Hni l "id"%string Ha.
      change (optional (value norm parse_u32) (Some raw)) with (opt_map Some (value norm parse_u32 raw)).
      unfold value at 1. destruct (opt_bind (norm raw) parse_u32) as [x|]; finish IH Ha l. }
    destruct (local_is key "created_at") eqn:E2.
    { start E2 Hni l "created_at"%string Ha.
      change (optional norm (Some raw)) with (opt_map Some (norm raw)).
      destruct (norm raw) as [x|]; finish IH Ha l. }
    destruct (local_is key "closed_at") eqn:E3.
    { start E3 Hni l "closed_at"%string Ha.
      change (optional norm (Some raw)) with (opt_map Some (norm raw)).
      destruct (norm raw) as [x|]; finish IH Ha l. }
    destruct (local_is key "open") eqn:E4.
    { start E4 Hni l "open"%string Ha. rewrite bool_text_eq.
      change (optional bool_text (Some raw)) with (opt_map Some (bool_text raw)).
      destruct (bool_text raw) as [x|]; finish IH Ha l. }
    destruct (local_is key "user") eqn:E5.
    { start E5 Hni l "user"%string Ha.
      change (optional norm (Some raw)) with (opt_map Some (norm raw)).
      destruct (norm raw) as [x|]; finish IH Ha l. }
    destruct (local_is key "uid") eqn:E6.
    { start E6 Hni l "uid"%string Ha.
      change (optional (value norm parse_i64) (Some raw)) with (opt_map Some (opt_bind (norm raw) parse_i64)).
      destruct (opt_bind (norm raw) parse_i64) as [x|]; finish IH Ha l. }
    destruct (local_is key "num_changes") eqn:E7.
    { start E7 Hni l "num_changes"%string Ha.
      change (optional (value norm parse_u64) (Some raw)) with (opt_map Some (opt_bind (norm raw) parse_u64)).
      destruct (opt_bind (norm raw) parse_u64) as [x|]; finish IH Ha l. }
    destruct (local_is key "comments_count") eqn:E8.
    { start E8 Hni l "comments_count"%string Ha.
      change (optional (value norm parse_u64) (Some raw)) with (opt_map Some (opt_bind (norm raw) parse_u64)).
      destruct (opt_bind (norm raw) parse_u64) as [x|]; finish IH Ha l. }
    cbn [opt_bind]. apply IH.
Qed.

(** The changeset of an element whose tags have been read. *)
Definition attrs_value (l : list qattr) (t : tags) : option changeset :=
  match take_attrs norm builder0 l with Some b => build b t | None => None end.

Lemma changeset_value_eq l body : distinct l ->
  changeset_value norm l body
  = match sequence (map (tag_value norm) (tag_elements body)) with
    | Some t => attrs_value l t
    | None => None
    end.
Proof.
  intros Hd. unfold changeset_value, attrs_value. rewrite take_attrs_spec by assumption.
  change (existsb (fun a => match a with AErr => true | AOk _ _ => false end) l) with (has_err l).
  destruct (has_err l); [destruct (sequence _); reflexivity|].
  destruct (sequence (map (tag_value norm) (tag_elements body))) as [t|].
  - unfold merged, optional, required. cbn [builder0 b_id b_created b_closed b_open b_uid b_user b_num_changes b_comments_count].
    destruct (raw_attr l "id") as [r1|]; [destruct (value norm parse_u32 r1)|]; cbn [opt_map]; try reflexivity;
    (destruct (raw_attr l "created_at") as [r2|]; [destruct (norm r2)|]); cbn [opt_map]; try reflexivity;
    (destruct (raw_attr l "closed_at") as [r3|]; [destruct (norm r3)|]); cbn [opt_map]; try reflexivity;
    (destruct (raw_attr l "open") as [r4|]; [destruct (bool_text r4)|]); cbn [opt_map]; try reflexivity;
    (destruct (raw_attr l "uid") as [r5|]; [destruct (value norm parse_i64 r5)|]); cbn [opt_map]; try reflexivity;
    (destruct (raw_attr l "user") as [r6|]; [destruct (norm r6)|]); cbn [opt_map]; try reflexivity;
    (destruct (raw_attr l "num_changes") as [r7|]; [destruct (value norm parse_u64 r7)|]); cbn [opt_map]; try reflexivity;
    (destruct (raw_attr l "comments_count") as [r8|]; [destruct (value norm parse_u64 r8)|]); reflexivity.
  - repeat match goal with |- match ?x with _ => _ end = _ => destruct x; try reflexivity end.
Qed.

(** ** Tags *)

Lemma take_kv_spec l : forall k v, distinct l ->
  take_kv norm k v l =
  if has_err l then None else
  match optional norm (raw_attr l "k"), optional norm (raw_attr l "v") with
  | Some a, Some b => Some (orelse a k, orelse b v)
  | _, _ => None
  end.
Proof.
  induction l as [|[|key raw] l IH]; intros k v Hd; [reflexivity|reflexivity|].
  cbn [take_kv has_err existsb orb].
  change (existsb (fun a => match a with AErr => true | AOk _ _ => false end) l) with (has_err l).
  unfold distinct, local_names in Hd. cbn [filter_map] in Hd. inversion Hd as [|? ? Hni Hnd]; subst.
  fold (local_names l) in *. specialize (fun k v => IH k v Hnd).
  rewrite !raw_attr_cons.
  destruct (local_is key "k") eqn:E1.
  { apply local_is_eq in E1. unfold local_is. rewrite ?local_name_part, E1 in *.
    pose proof (raw_attr_absent l "k" Hni) as Ha. cbn [str_eqb lit].
    change (optional norm (Some raw)) with (opt_map Some (norm raw)).
    destruct (norm raw) as [x|].
    - cbn [opt_bind]. rewrite IH, Ha. cbn. reflexivity.
    - cbn. destruct (has_err l); reflexivity. }
  destruct (local_is key "v") eqn:E2.
  { apply local_is_eq in E2. unfold local_is. rewrite ?local_name_part, E2 in *.
    pose proof (raw_attr_absent l "v" Hni) as Ha. cbn [str_eqb lit].
    change (optional norm (Some raw)) with (opt_map Some (norm raw)).
    destruct (norm raw) as [x|].
    - cbn [opt_bind]. rewrite IH, Ha. cbn. reflexivity.
    - cbn. destruct (has_err l); [reflexivity|]. destruct (optional norm _); reflexivity. }
  apply IH.
Qed.

Lemma read_tag_spec l : distinct l -> read_tag norm l = tag_value norm l.
Proof.
  intros Hd. unfold read_tag, tag_value. rewrite take_kv_spec by assumption.
  change (existsb (fun a => match a with AErr => true | AOk _ _ => false end) l) with (has_err l).
  destruct (has_err l); [reflexivity|].
  unfold required, optional.
  destruct (raw_attr l "k") as [k|]; [destruct (norm k)|]; cbn [opt_map orelse]; try reflexivity;
  (destruct (raw_attr l "v") as [v|]; [destruct (norm v)|]); reflexivity.
Qed.

Definition add_tags (t ts : tags) : tags := fold_left (fun t '(k, v) => tags_set k v t) ts t.

Lemma last_value_ops ts k : last_value ts k = expected_tag (map (fun '(k, v) => SetTag k v) ts) k.
Proof.
  unfold last_value, expected_tag. generalize (@None str).
  induction ts as [|[a b] ts IH]; intros cur; cbn [map fold_left fst snd]; [reflexivity|].
  rewrite IH. reflexivity.
Qed.

Lemma add_tags_map ts :
  (forall k, tags_get k (add_tags [] ts) = last_value ts k) /\ NoDup (map fst (add_tags [] ts)).
Proof.
  destruct (tag_map_facts (map (fun '(k, v) => SetTag k v) ts) [] eq_refl) as (A & Bn & _).
  assert (E : fold_left (fun t p => tags_op p t) (map (fun '(k, v) => SetTag k v) ts) [] = add_tags [] ts).
  { clear. unfold add_tags. generalize (@nil (str * str)).
    induction ts as [|[a b] ts IH]; intros t; cbn [map fold_left]; [reflexivity|]. apply IH. }
  rewrite E in *. split; [|exact Bn]. intros k. rewrite A. symmetry. apply last_value_ops.
Qed.

(** ** The reader *)

(** Events next_changeset passes over between changesets. *)
Definition skipped (e : qevent) : Prop :=
  match e with
  | QStart n _ | QEmpty n _ => local_part n <> lit "changeset"
  | _ => True
  end.

Lemma not_about_skipped e : not_about "changeset" e -> skipped e.
Proof. destruct e; cbn; tauto. Qed.

Lemma next_skip f e r : skipped e -> next_changeset norm (S f) (QEv e :: r) = next_changeset norm f r.
Proof.
  intros H. destruct e; cbn [skipped] in H; try reflexivity; apply local_is_neq in H;
  cbn [next_changeset]; now rewrite H.
Qed.

Lemma cs_step_skip e r x s : skipped e -> cs_step norm r x s -> cs_step norm (QEv e :: r) x s.
Proof. intros H [f Hf]. exists (S f). now rewrite next_skip. Qed.

Lemma Replies_skip e r rs : skipped e -> Replies (cs_step norm) r rs -> Replies (cs_step norm) (QEv e :: r) rs.
Proof.
  intros H HR. inversion HR; subst.
  - eapply Replies_end, cs_step_skip; eassumption.
  - eapply Replies_item; [eapply cs_step_skip|]; eassumption.
  - eapply Replies_error; [eapply cs_step_skip|]; eassumption.
Qed.

Lemma Replies_skips es r rs : Forall skipped es ->
  Replies (cs_step norm) r rs -> Replies (cs_step norm) (map QEv es ++ r) rs.
Proof. induction 1; intros HR; cbn; [easy|]. apply Replies_skip; auto. Qed.

(** The tag loop over the content of an element. *)
Lemma tags_loop_body body close rest : forall t f,
  Forall (not_about "changeset") body -> tag_distinct body -> local_part close = lit "changeset" ->
  (length body < f)%nat ->
  match sequence (map (tag_value norm) (tag_elements body)) with
  | Some ts => tags_loop norm f t (map QEv body ++ QEv (QEnd close) :: rest) = Done (Some (add_tags t ts), rest)
  | None => exists b1 b2, body = b1 ++ b2 /\
      tags_loop norm f t (map QEv body ++ QEv (QEnd close) :: rest)
      = Done (None, map QEv b2 ++ QEv (QEnd close) :: rest)
  end.
Proof.
  induction body as [|e body IH]; intros t f HF Ht Hc Hf.
  - destruct f as [|f]; [cbn in Hf; lia|]. apply local_is_eq in Hc.
    cbn [map app tag_elements filter_map sequence tags_loop]. rewrite Hc. reflexivity.
  - inversion HF as [|? ? He HF']; subst.
    destruct f as [|f]; [cbn in Hf; lia|]. cbn [length] in Hf.
    assert (Hf' : (length body < f)%nat) by lia.
    assert (Hother : tag_attrs e = None ->
              tags_loop norm (S f) t (QEv e :: map QEv body ++ QEv (QEnd close) :: rest)
              = tags_loop norm f t (map QEv body ++ QEv (QEnd close) :: rest)).
    { intros Ha. cbn [tags_loop]. destruct e as [n a|n a|n|]; cbn [tag_attrs] in Ha.
      - destruct (str_eq_dec (local_part n) (lit "tag")) as [E|E]; [discriminate|].
        apply local_is_neq in E. now rewrite E.
      - destruct (str_eq_dec (local_part n) (lit "tag")) as [E|E]; [discriminate|].
        apply local_is_neq in E. now rewrite E.
      - cbn [not_about] in He. apply local_is_neq in He. now rewrite He.
      - reflexivity. }
    assert (Htag : forall a, tag_attrs e = Some a -> distinct a ->
              tags_loop norm (S f) t (QEv e :: map QEv body ++ QEv (QEnd close) :: rest)
              = match tag_value norm a with
                | Some (k, v) => tags_loop norm f (tags_set k v t) (map QEv body ++ QEv (QEnd close) :: rest)
                | None => Done (None, map QEv body ++ QEv (QEnd close) :: rest)
                end).
    { intros a Ha Hd. cbn [tags_loop]. destruct e as [n a'|n a'|n|]; cbn [tag_attrs] in Ha; try discriminate;
      (destruct (str_eq_dec (local_part n) (lit "tag")) as [E|E]; [|discriminate];
       injection Ha as ->; apply local_is_eq in E; rewrite E, read_tag_spec by assumption; reflexivity). }
    unfold tag_distinct, tag_elements in *. cbn [filter_map] in *. cbn [map app].
    destruct (tag_attrs e) as [a|] eqn:Ea.
    + inversion Ht as [|? ? Hda Ht']; subst. cbn [map sequence app].
      rewrite (Htag a eq_refl Hda).
      destruct (tag_value norm a) as [[k v]|].
      * specialize (IH (tags_set k v t) f HF' Ht' Hc Hf').
        destruct (sequence (map (tag_value norm) (filter_map tag_attrs body))) as [ts|].
        -- exact IH.
        -- destruct IH as (b1 & b2 & -> & IH). exists (e :: b1), b2. split; [reflexivity|]. exact IH.
      * exists [e], body. split; reflexivity.
    + rewrite (Hother eq_refl). specialize (IH t f HF' Ht Hc Hf').
      destruct (sequence (map (tag_value norm) (filter_map tag_attrs body))) as [ts|].
      * exact IH.
      * destruct IH as (b1 & b2 & -> & IH). exists (e :: b1), b2. split; [reflexivity|]. exact IH.
Qed.

Lemma built_attrs l t b : take_attrs norm builder0 l = Some b ->
  built b t = match attrs_value l t with Some c => Item c | None => Error end.
Proof. intros H. unfold built, attrs_value. now rewrite H. Qed.

Lemma build_as_map l ts : distinct l ->
  match attrs_value l ts, attrs_value l (add_tags [] ts) with
  | Some d, Some c => as_map d c
  | None, None => True
  | _, _ => False
  end.
Proof.
  intros Hd. unfold attrs_value. destruct (take_attrs norm builder0 l) as [b|]; [|exact I].
  unfold build. destruct (b_id b), (b_created b), (b_open b), (b_num_changes b), (b_comments_count b); try exact I.
  destruct (add_tags_map ts) as [A N].
  unfold as_map, cs_tag; cbn. repeat (split; [reflexivity|]). split; assumption.
Qed.

Lemma skipped_end n : skipped (QEnd n).
Proof. exact I. Qed.

Theorem reads_file ps : Forall wf_part ps ->
  exists rs, Replies (cs_step norm) (file ps) rs /\ Forall2 replies (file_value norm ps) rs.
Proof.
  induction 1 as [|p ps Hp HF IH].
  - exists []. split; [|constructor]. apply Replies_end with (s' := []). exists 1%nat. reflexivity.
  - destruct IH as (rs & HR & HV). unfold file, file_value in *. cbn [flat_map filter_map].
    destruct p as [e|n a|n a body close]; cbn [render part_value].
    + exists rs. split; [|exact HV]. cbn [app]. apply Replies_skip; [|exact HR].
      now apply not_about_skipped.
    + destruct Hp as [Hn Hd]. apply local_is_eq in Hn.
      rewrite changeset_value_eq by assumption. cbn [tag_elements filter_map map sequence].
      pose proof (build_as_map a [] Hd) as Hb. change (add_tags [] []) with (@nil (str * str)) in Hb.
      cbn [app]. unfold attrs_value in *. destruct (take_attrs norm builder0 a) as [b|] eqn:Eb.
      * destruct (build b []) as [c|] eqn:Ec.
        -- exists (Item c :: rs). split; [|constructor; assumption].
           eapply Replies_item; [|exact HR]. exists 1%nat. cbn [next_changeset]. rewrite Hn, Eb. unfold built. now rewrite Ec.
        -- exists (Error :: rs). split; [|constructor; [exact I|assumption]].
           eapply Replies_error; [|exact HR]. exists 1%nat. cbn [next_changeset]. rewrite Hn, Eb. unfold built. now rewrite Ec.
      * exists (Error :: rs). split; [|constructor; [exact I|assumption]].
        eapply Replies_error; [|exact HR]. exists 1%nat. cbn [next_changeset]. now rewrite Hn, Eb.
    + destruct Hp as (Hn & Hc & Hd & Hbody & Ht). apply local_is_eq in Hn.
      rewrite changeset_value_eq by assumption.
      cbn [app]. rewrite <- app_assoc. cbn [app].
      assert (Hrest : forall b2, (exists b1, body = b1 ++ b2) ->
                Replies (cs_step norm) (map QEv b2 ++ QEv (QEnd close) :: flat_map render ps) rs).
      { intros b2 [b1 ->]. apply Replies_skips.
        - apply Forall_app in Hbody as [_ Hb2]. eapply Forall_impl; [|exact Hb2]. exact not_about_skipped.
        - apply Replies_skip; [exact I|exact HR]. }
      pose proof (tags_loop_body body close (flat_map render ps) [] (S (length body)) Hbody Ht Hc (Nat.lt_succ_diag_r _)) as HL.
      destruct (take_attrs norm builder0 a) as [b|] eqn:Eb.
      * destruct (sequence (map (tag_value norm) (tag_elements body))) as [ts|].
        -- pose proof (build_as_map a ts Hd) as Hb. unfold attrs_value in *. rewrite Eb in *.
           destruct (build b ts) as [d|], (build b (add_tags [] ts)) as [c|] eqn:Ec; try contradiction.
           ++ exists (Item c :: rs). split; [|constructor; assumption].
              eapply Replies_item; [|exact HR]. exists (S (S (length body))).
              cbn [next_changeset]. rewrite Hn, Eb, HL. unfold built. now rewrite Ec.
           ++ exists (Error :: rs). split; [|constructor; [exact I|assumption]].
              eapply Replies_error; [|exact HR]. exists (S (S (length body))).
              cbn [next_changeset]. rewrite Hn, Eb, HL. unfold built. now rewrite Ec.
        -- destruct HL as (b1 & b2 & E & HL).
           exists (Error :: rs). split; [|constructor; [exact I|assumption]].
           eapply Replies_error; [|apply (Hrest b2); now exists b1]. exists (S (S (length body))).
           cbn [next_changeset]. rewrite Hn, Eb, HL. reflexivity.
      * exists (Error :: rs). split.
        -- eapply Replies_error; [|apply (Hrest body); now exists []]. exists 1%nat.
           cbn [next_changeset]. now rewrite Hn, Eb.
        -- constructor; [|assumption]. unfold attrs_value. rewrite Eb. destruct (sequence _); exact I.
Qed.

End Facts.
