(** What the tag reader says about every file of well-formed pieces, whatever is wrong with
    the attributes (C50). *)
From Coq Require Import String ZArith List Bool Lia.
From Coq Require Import ZifyBool ZifyNat.
From Verif Require Import Base SpecNum Ints Timestamp Obj SpecJson SpecIter Changesets SpecChangeset ChangesetFacts ChangesetTags
  PropsChangeset PropsExact5.
Import ListNotations.
Open Scope Z_scope.

(** ** Specification *)

(** The attributes before the first one that cannot be read. *)
Fixpoint before_error (a : list qattr) : list qattr :=
  match a with
  | AOk k raw :: r => AOk k raw :: before_error r
  | _ => []
  end.
Definition properb (a : list qattr) : bool := forallb (fun x => match x with AErr => false | _ => true end) a.

(** Something is wrong with the attributes of a changeset: one cannot be read, or the id
    is no number. *)
Definition bad_attrs (norm : str -> option str) (a : list qattr) : bool :=
  negb (properb a) || (is_some (raw_attr (before_error a) "id") && negb (is_some (own_id norm (before_error a)))).

(** The replies to a file; [last] is the last id seen in a changeset with content, [held]
    are tags that have been read and not been returned.  A changeset with content gives one
    error if something is wrong with its attributes, one for each bad tag, and then its good
    tags under its own id if it has one, otherwise under [last], otherwise an error.  If
    something is wrong with its attributes, its tags come after the held ones; otherwise
    those are forgotten. *)
Fixpoint answers (norm : str -> option str) (last : option Z) (held : tags) (ps : list part) : list (reply (Z * tags)) :=
  match ps with
  | [] => []
  | CFull _ a body _ :: r =>
      let id := match own_id norm (before_error a) with Some i => Some i | None => last end in
      let t := (if bad_attrs norm a then held else []) ++ good_tags norm body in
      (if bad_attrs norm a then [Error] else []) ++ repeat Error (bad_tags norm body) ++
      match id with
      | Some i => Item (i, t) :: answers norm id [] r
      | None => Error :: answers norm id t r
      end
  | Noise e :: r =>
      repeat Error (bad_tags norm [e]) ++ answers norm last (held ++ good_tags norm [e]) r
  | CEmpty _ _ :: r => answers norm last held r
  end.

(** No attribute twice in tags outside changesets. *)
Definition noise_distinct (p : part) : Prop :=
  match p with Noise e => tag_distinct [e] | _ => True end.

(** A changeset's tags go astray: they are returned under the id of a changeset before it,
    or with the tags of another one. *)
Fixpoint astray (norm : str -> option str) (seen : bool) (held : tags) (ps : list part) : Prop :=
  match ps with
  | [] => False
  | CFull _ a body _ :: r =>
      let t := if bad_attrs norm a then held else [] in
      match own_id norm (before_error a) with
      | Some _ => t <> [] \/ astray norm true [] r
      | None => seen = true \/ astray norm false (t ++ good_tags norm body) r
      end
  | Noise e :: r => astray norm seen (held ++ good_tags norm [e]) r
  | CEmpty _ _ :: r => astray norm seen held r
  end.
Definition readable_tags (norm : str -> option str) (p : part) : list (Z * tags) :=
  match p with
  | CFull _ a body _ => match own_id norm (before_error a) with Some i => [(i, good_tags norm body)] | None => [] end
  | _ => []
  end.

(** ** Proof *)

Lemma properb_proper a : properb a = true <-> proper a.
Proof.
  unfold properb, proper. rewrite forallb_forall. split.
  - intros H C. specialize (H _ C). discriminate.
  - intros H [|k v] Hx; [contradiction|reflexivity].
Qed.

Lemma local_names_before a k : In k (local_names (before_error a)) -> In k (local_names a).
Proof.
  unfold local_names. induction a as [|[|key raw] a IH]; cbn [before_error filter_map]; [intros []|intros []|].
  intros [H|H]; [now left|right; auto].
Qed.

Lemma take_id_any norm a : distinct a -> forall cur,
  take_id norm cur a = (match own_id norm (before_error a) with Some i => Some i | None => cur end, negb (bad_attrs norm a)).
Proof.
  unfold bad_attrs, distinct, own_id.
  induction a as [|[|key raw] a IH]; intros Hd cur; [reflexivity|reflexivity|].
  unfold local_names in Hd. cbn [filter_map] in Hd. inversion Hd as [|? ? Hni Hnd]; subst. specialize (IH Hnd).
  cbn [take_id before_error properb forallb andb]. rewrite raw_attr_cons. fold (properb a).
  destruct (local_is key "id") eqn:E.
  - cbn [required is_some andb]. unfold value.
    apply local_is_eq in E. rewrite E in Hni. fold (local_names a) in Hni.
    assert (N : raw_attr (before_error a) "id" = None).
    { apply raw_attr_absent. intros C. apply Hni. now apply local_names_before. }
    destruct (opt_bind (norm raw) parse_u64) as [v|].
    + rewrite IH, N. cbn [required is_some negb andb]. reflexivity.
    + cbn [is_some negb]. now rewrite orb_true_r.
  - apply IH.
Qed.

Lemma tr_noise norm e rest last t rs : not_about "changeset" e -> tag_distinct [e] ->
  Replies (tr_step norm) (TR last (t ++ good_tags norm [e]) rest) rs ->
  Replies (tr_step norm) (TR last t (QEv e :: rest)) (repeat Error (bad_tags norm [e]) ++ rs).
Proof.
  intros He Ht HR. unfold bad_tags, good_tags, tag_distinct, tag_elements in *. cbn [filter_map] in *.
  assert (Hother : tag_attrs e = None -> next_tag norm last t (QEv e :: rest) = next_tag norm last t rest).
  { intros Ha. cbn [next_tag]. destruct e as [n a|n a|n|]; cbn [tag_attrs not_about] in *.
    - apply local_is_neq in He. rewrite He.
      destruct (str_eq_dec (local_part n) (lit "tag")) as [E|E]; [discriminate|].
      apply local_is_neq in E. now rewrite E.
    - destruct (str_eq_dec (local_part n) (lit "tag")) as [E|E]; [discriminate|].
      apply local_is_neq in E. now rewrite E.
    - apply local_is_neq in He. now rewrite He.
    - reflexivity. }
  assert (Htag : forall a, tag_attrs e = Some a -> distinct a ->
            next_tag norm last t (QEv e :: rest)
            = match tag_value norm a with
              | Some kv => next_tag norm last (t ++ [kv]) rest
              | None => (Error, TR last t rest)
              end).
  { intros a Ha Hd. cbn [next_tag]. destruct e as [n a'|n a'|n|]; cbn [tag_attrs not_about] in *; try discriminate;
    try (apply local_is_neq in He; rewrite He);
    (destruct (str_eq_dec (local_part n) (lit "tag")) as [E|E]; [|discriminate];
     injection Ha as ->; apply local_is_eq in E; rewrite E, read_tag_spec by assumption; reflexivity). }
  destruct (tag_attrs e) as [a|].
  - inversion Ht as [|? ? Hda _]; subst. specialize (Htag a eq_refl Hda).
    cbn [filter filter_map] in *. destruct (tag_value norm a) as [kv|] eqn:Ev; cbn [is_some negb length repeat app].
    + eapply tr_replies_eq; [|exact HR]. exact Htag.
    + rewrite app_nil_r in HR. eapply Replies_error; [|exact HR]. exact Htag.
  - cbn [filter filter_map length repeat app] in *. rewrite app_nil_r in HR.
    eapply tr_replies_eq; [|exact HR]. exact (Hother eq_refl).
Qed.

Lemma tr_events norm body rest last rs : Forall (not_about "changeset") body -> tag_distinct body ->
  forall t, Replies (tr_step norm) (TR last (t ++ good_tags norm body) rest) rs ->
  Replies (tr_step norm) (TR last t (map QEv body ++ rest)) (repeat Error (bad_tags norm body) ++ rs).
Proof.
  induction 1 as [|e body He HF IH]; intros Hd t HR.
  - cbn in *. now rewrite app_nil_r in HR.
  - assert (D : tag_distinct [e] /\ tag_distinct body).
    { unfold tag_distinct, tag_elements in *. cbn [filter_map] in *. destruct (tag_attrs e); [|split; [constructor|exact Hd]].
      inversion Hd; subst. split; [repeat constructor|]; assumption. }
    assert (E1 : good_tags norm (e :: body) = good_tags norm [e] ++ good_tags norm body).
    { unfold good_tags, tag_elements. cbn [filter_map]. destruct (tag_attrs e); [|reflexivity]. cbn [filter_map]. now destruct (tag_value norm l). }
    assert (E2 : repeat (@Error (Z * tags)) (bad_tags norm (e :: body)) = repeat Error (bad_tags norm [e]) ++ repeat Error (bad_tags norm body)).
    { rewrite <- repeat_app. f_equal. unfold bad_tags, tag_elements. cbn [filter_map]. destruct (tag_attrs e); [|reflexivity].
      cbn [filter]. now destruct (negb _). }
    rewrite E2, <- app_assoc. cbn [map app]. apply tr_noise; [exact He|apply D|]. apply IH; [apply D|].
    now rewrite <- app_assoc, <- E1.
Qed.

Lemma tr_answers norm ps : Forall wf_part ps -> Forall noise_distinct ps -> forall last held,
  Replies (tr_step norm) (TR last held (file ps)) (answers norm last held ps).
Proof.
  induction 1 as [|p ps Hp HF IH]; intros HN last held.
  - apply Replies_end with (s' := TR last held []). reflexivity.
  - pose proof (Forall_inv HN) as Hq. specialize (IH (Forall_inv_tail HN)).
    unfold file in *. cbn [flat_map]. destruct p as [e|n a|n a body close]; cbn [render answers app].
    + apply tr_noise; [exact Hp|exact Hq|apply IH].
    + eapply tr_replies_eq; [|apply (IH last held)]. unfold tr_next. cbn [tr_id tr_tags tr_items next_tag].
      destruct Hp as [Hn _]. unfold local_is. rewrite local_name_part, Hn. reflexivity.
    + destruct Hp as (Hn & Hc & Hd & Hbody & Ht). apply local_is_eq in Hn, Hc.
      set (id := match own_id norm (before_error a) with Some i => Some i | None => last end).
      set (t := if bad_attrs norm a then held else []).
      assert (R : Replies (tr_step norm) (TR id t (map QEv body ++ QEv (QEnd close) :: flat_map render ps))
                (repeat Error (bad_tags norm body) ++
                 match id with Some i => Item (i, t ++ good_tags norm body) :: answers norm id [] ps
                 | None => Error :: answers norm id (t ++ good_tags norm body) ps end)).
      { apply tr_events; [exact Hbody|exact Ht|]. destruct id as [i|].
        - eapply Replies_item; [|apply (IH (Some i) [])]. unfold tr_step, tr_next. cbn. now rewrite Hc.
        - eapply Replies_error; [|apply (IH None)]. unfold tr_step, tr_next. cbn. now rewrite Hc. }
      rewrite <- app_assoc. cbn [app].
      assert (T : take_id norm last a = (id, negb (bad_attrs norm a))) by (now apply take_id_any).
      destruct (bad_attrs norm a); cbn [negb app] in *.
      * eapply Replies_error; [|exact R]. unfold tr_step, tr_next. cbn [tr_id tr_tags tr_items next_tag]. now rewrite Hn, T.
      * eapply tr_replies_eq; [|exact R]. unfold tr_next. cbn [tr_id tr_tags tr_items next_tag]. now rewrite Hn, T.
Qed.

Lemma returned_answers norm ps : forall last held,
  (returned (answers norm last held ps) = flat_map (readable_tags norm) ps <-> ~ astray norm (is_some last) held ps) /\
  (length (flat_map (readable_tags norm) ps) <= length (returned (answers norm last held ps)))%nat.
Proof.
  assert (Er : forall b : bool, returned (if b then [@Error (Z * tags)] else []) = []) by (intros []; reflexivity).
  induction ps as [|p ps IH]; intros last held; cbn [answers flat_map readable_tags astray].
  { split; [|reflexivity]. split; [intros _ []|reflexivity]. }
  destruct p as [e|n a|n a body close]; cbn [readable_tags app]; [|apply IH|].
  { rewrite returned_app, returned_errors. apply IH. }
  rewrite !returned_app, returned_errors, Er. cbn [app].
  set (t := if bad_attrs norm a then held else []).
  destruct (own_id norm (before_error a)) as [i|].
  - destruct (IH (Some i) []) as (A & B). cbn [is_some returned length app] in *. split; [|lia]. split.
    + intros E. injection E as E1 E2. intros [C|C]; [|now apply (proj1 A)].
      apply C. apply (f_equal (@length _)) in E1. rewrite app_length in E1. destruct t; [reflexivity|cbn in E1; lia].
    + intros C. destruct t as [|x t]; [|exfalso; apply C; left; discriminate]. f_equal. apply A. tauto.
  - destruct last as [i|]; cbn [returned is_some length app].
    + destruct (IH (Some i) []) as (A & B). split; [|lia]. split.
      * intros E. apply (f_equal (@length _)) in E. cbn [length] in E. exfalso. lia.
      * intros C. exfalso. apply C. now left.
    + destruct (IH None (t ++ good_tags norm body)) as (A & B). cbn [is_some] in A. split; [|exact B]. rewrite A. split; [|tauto].
      intros C [D|D]; [discriminate|contradiction].
Qed.

(** ** Theorems *)

(** Exactly what the tag reader says about every file of well-formed pieces; and it returns
    just the good tags of each changeset with a readable id, under that id, exactly if no
    tags go astray. *)
Theorem C50_all : forall norm ps, Forall wf_part ps -> Forall noise_distinct ps ->
  Replies (tr_step norm) (tr_new (file ps)) (answers norm None [] ps) /\
  (returned (answers norm None [] ps) = flat_map (readable_tags norm) ps <-> ~ astray norm false [] ps).
Proof.
  intros norm ps W N. split; [now apply tr_answers|]. apply (proj1 (returned_answers norm ps None [])).
Qed.
Print Assumptions C50_all.

(** A changeset without id, and then one with an attribute that cannot be read after its id:
    the tags of the first are returned as tags of the second. *)
Definition ex_astray : list part :=
  [CFull (lit "changeset") [at_ "uid" "11"] [ex_tag "c" "3"] (lit "changeset");
   CFull (lit "changeset") [at_ "id" "10"; AErr] [ex_tag "a" "1"; QEmpty (lit "tag") [at_ "k" "x"]] (lit "changeset");
   Noise (ex_tag "d" "4");
   CFull (lit "changeset") [at_ "id" "12"] [ex_tag "e" "5"] (lit "changeset")].
Example C50_all_ex : Forall wf_part ex_astray /\ Forall noise_distinct ex_astray /\
  astray ex_norm false [] ex_astray /\ ~ astray ex_norm false [] (tl ex_astray) /\
  answers ex_norm None [] ex_astray =
    [Error; Error; Error; Item (10, [(lit "c", lit "3"); (lit "a", lit "1")]); Item (12, [(lit "e", lit "5")])] /\
  answers ex_norm None [] (tl ex_astray) = [Error; Error; Item (10, [(lit "a", lit "1")]); Item (12, [(lit "e", lit "5")])].
Proof.
  split; [|split; [|split; [|split; [|split; reflexivity]]]].
  - repeat constructor; cbn; intuition discriminate.
  - repeat constructor; cbn; intuition discriminate.
  - vm_compute. right. left. discriminate.
  - vm_compute. intuition discriminate.
Qed.
