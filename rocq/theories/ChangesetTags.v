(** Facts about where the changeset reader gets stuck and about the tag reader. *)
From Coq Require Import String ZArith List Bool Lia.
From Coq Require Import ZifyBool ZifyNat.
From Verif Require Import Base SpecNum Ints Timestamp Obj SpecJson Changesets SpecChangeset ChangesetFacts.
Import ListNotations.
Open Scope Z_scope.

Section Facts.
Variable norm : str -> option str.

Lemma readable_take a : distinct a -> (readable norm a <-> exists b, take_attrs norm builder0 a = Some b).
Proof.
  intros Hd. rewrite take_attrs_spec by assumption. unfold readable, merged.
  rewrite <- has_err_proper. destruct (has_err a).
  - split; [intros [H _]; discriminate|intros [b H]; discriminate].
  - repeat match goal with |- context [optional ?p ?o] =>
      let z := fresh "z" in destruct (optional p o) as [z|] end;
    (split; [intros H|intros [b H]]; try discriminate H; try (exfalso; tauto);
     first [eexists; reflexivity|repeat split; discriminate]).
Qed.

(** Bodies on which the tag loop never stops. *)
Definition quiet (body : list qevent) : Prop :=
  Forall no_close body /\ Forall (fun t => tag_value norm t <> None) (tag_elements body).

Lemma tags_loop_eof f t : tags_loop norm f t [] = Out.
Proof. revert t. induction f as [|f IH]; intros t; [reflexivity|]. cbn. apply IH. Qed.

Lemma quiet_cons e body : quiet (e :: body) <->
  no_close e /\ (forall a, tag_attrs e = Some a -> tag_value norm a <> None) /\ quiet body.
Proof.
  unfold quiet, tag_elements. cbn [filter_map]. destruct (tag_attrs e) as [a|] eqn:E.
  - split.
    + intros [H1 H2]. inversion H1; inversion H2; subst. split; [assumption|]. split; [|split; assumption].
      intros ? [= <-]. assumption.
    + intros (A & Bb & C & D). split; constructor; auto.
  - split.
    + intros [H1 H2]. inversion H1; subst. split; [assumption|]. split; [discriminate|split; assumption].
    + intros (A & Bb & C & D). split; [constructor; auto|assumption].
Qed.

Lemma tags_loop_quiet body : Forall item_distinct (map QEv body) -> quiet body ->
  forall f t, tags_loop norm f t (map QEv body) = Out.
Proof.
  induction body as [|e body IH]; intros Hd HQ f t; [apply tags_loop_eof|].
  apply quiet_cons in HQ as (Hc & Ht & HQ). inversion Hd as [|? ? He Hd']; subst.
  destruct f as [|f]; [reflexivity|]. cbn [map tags_loop].
  destruct e as [n a|n a|n|]; cbn [tag_attrs item_distinct no_close] in *.
  - destruct (local_is n "tag") eqn:E; [|now apply IH].
    apply local_is_eq in E. destruct (str_eq_dec (local_part n) (lit "tag")); [|contradiction].
    rewrite read_tag_spec by assumption. specialize (Ht a eq_refl).
    destruct (tag_value norm a) as [[k v]|]; [now apply IH|congruence].
  - destruct (local_is n "tag") eqn:E; [|now apply IH].
    apply local_is_eq in E. destruct (str_eq_dec (local_part n) (lit "tag")); [|contradiction].
    rewrite read_tag_spec by assumption. specialize (Ht a eq_refl).
    destruct (tag_value norm a) as [[k v]|]; [now apply IH|congruence].
  - apply local_is_neq in Hc. rewrite Hc. now apply IH.
  - now apply IH.
Qed.

Lemma tags_loop_stops l : Forall item_distinct l -> forall t,
  (exists x, tags_loop norm (S (length l)) t l = Done x) \/ (exists body, l = map QEv body /\ quiet body).
Proof.
  induction l as [|i l IH]; intros Hd t.
  - right. exists []. split; [reflexivity|]. split; constructor.
  - inversion Hd as [|? ? Hi Hd']; subst. destruct i as [e|]; [|left; eexists; reflexivity].
    assert (Hgo : forall t', no_close e -> (forall a, tag_attrs e = Some a -> tag_value norm a <> None) ->
       tags_loop norm (S (S (length l))) t (QEv e :: l) = tags_loop norm (S (length l)) t' l ->
       (exists x, tags_loop norm (S (length (QEv e :: l))) t (QEv e :: l) = Done x)
       \/ (exists body, QEv e :: l = map QEv body /\ quiet body)).
    { intros t' Hc Ht E. destruct (IH Hd' t') as [[x Hx]|(body & -> & HQ)].
      - left. exists x. cbn [length]. now rewrite E.
      - right. exists (e :: body). split; [reflexivity|]. apply quiet_cons. auto. }
    remember (S (length l)) as f eqn:Ef.
    destruct e as [n a|n a|n|]; cbn [item_distinct] in Hi.
    + destruct (local_is n "tag") eqn:E.
      * pose proof (read_tag_spec norm a Hi) as Hr. destruct (tag_value norm a) as [[k v]|] eqn:Ev.
        -- apply (Hgo (tags_set k v t)); [exact I| |].
           ++ cbn. intros a' Ha. destruct (str_eq_dec _ _); [|discriminate]. injection Ha as <-. congruence.
           ++ cbn [tags_loop]. now rewrite E, Hr.
        -- left. eexists. cbn [length]. rewrite <- Ef. cbn [tags_loop]. rewrite E, Hr. reflexivity.
      * apply (Hgo t); [exact I| |].
        -- cbn [tag_attrs]. intros a' Ha. apply local_is_neq in E.
           destruct (str_eq_dec (local_part n) (lit "tag")); [contradiction|discriminate].
        -- cbn [tags_loop]. now rewrite E.
    + destruct (local_is n "tag") eqn:E.
      * pose proof (read_tag_spec norm a Hi) as Hr. destruct (tag_value norm a) as [[k v]|] eqn:Ev.
        -- apply (Hgo (tags_set k v t)); [exact I| |].
           ++ cbn. intros a' Ha. destruct (str_eq_dec _ _); [|discriminate]. injection Ha as <-. congruence.
           ++ cbn [tags_loop]. now rewrite E, Hr.
        -- left. eexists. cbn [length]. rewrite <- Ef. cbn [tags_loop]. rewrite E, Hr. reflexivity.
      * apply (Hgo t); [exact I| |].
        -- cbn [tag_attrs]. intros a' Ha. apply local_is_neq in E.
           destruct (str_eq_dec (local_part n) (lit "tag")); [contradiction|discriminate].
        -- cbn [tags_loop]. now rewrite E.
    + destruct (local_is n "changeset") eqn:E.
      * left. eexists. cbn [length]. rewrite <- Ef. cbn [tags_loop]. rewrite E. reflexivity.
      * apply (Hgo t); [now apply local_is_neq in E|discriminate|]. cbn [tags_loop]. now rewrite E.
    + apply (Hgo t); [exact I|discriminate|reflexivity].
Qed.

Lemma ends_inside_cons e l : no_start e -> ends_inside norm l -> ends_inside norm (QEv e :: l).
Proof.
  intros He (pre & n & a & body & -> & Hp & H). exists (e :: pre), n, a, body.
  split; [reflexivity|]. split; [constructor; assumption|exact H].
Qed.

Lemma next_stops l : Forall item_distinct l ->
  (exists x, next_changeset norm (S (S (length l))) l = Done x) \/ ends_inside norm l.
Proof.
  induction l as [|i l IH]; intros Hd; [left; eexists; reflexivity|].
  inversion Hd as [|? ? Hi Hd']; subst. destruct i as [e|]; [|left; eexists; reflexivity].
  assert (Hgo : no_start e ->
       (exists x, next_changeset norm (S (S (length (QEv e :: l)))) (QEv e :: l) = Done x)
       \/ ends_inside norm (QEv e :: l)).
  { intros He. destruct (IH Hd') as [[x Hx]|H].
    - left. exists x. cbn [length]. rewrite next_skip by exact He. exact Hx.
    - right. now apply ends_inside_cons. }
  destruct e as [n a|n a|n|]; try (apply Hgo; exact I).
  - destruct (str_eq_dec (local_part n) (lit "changeset")) as [E|E]; [|now apply Hgo].
    pose proof E as E'. apply local_is_eq in E'. cbn [item_distinct] in Hi.
    destruct (take_attrs norm builder0 a) as [b|] eqn:Eb.
    + destruct (tags_loop_stops l Hd' []) as [[[o r] Hx]|(body & -> & HQ)].
      * left. cbn [length next_changeset].
        assert (Hx' : tags_loop norm (S (S (length l))) [] l = Done (o, r)).
        { clear -Hx. revert Hx. generalize (@nil (str * str)). generalize (S (length l)).
          intros f. revert l. induction f as [|f IHf]; intros l t H; [discriminate|].
          cbn [tags_loop] in *. destruct l as [|[[n' a'|n' a'|n'|]|] l]; auto;
          repeat match goal with
          | |- context [if ?c then _ else _] => destruct c; auto
          | |- context [match read_tag ?x ?y with _ => _ end] => destruct (read_tag x y) as [[? ?]|]; auto
          end. }
        rewrite E', Eb, Hx'. destruct o as [t|]; eexists; reflexivity.
      * right. exists [], n, a, body. split; [reflexivity|]. split; [constructor|].
        split; [exact E|]. split; [apply readable_take; [exact Hi|now exists b]|]. exact HQ.
    + left. eexists. cbn [next_changeset length]. rewrite E', Eb. reflexivity.
  - destruct (str_eq_dec (local_part n) (lit "changeset")) as [E|E]; [|now apply Hgo].
    apply local_is_eq in E. left. cbn [next_changeset length]. rewrite E.
    destruct (take_attrs norm builder0 a) as [b|]; eexists; reflexivity.
Qed.

Lemma next_stuck l : Forall item_distinct l -> ends_inside norm l ->
  forall f, next_changeset norm f l = Out.
Proof.
  intros Hd (pre & n & a & body & -> & Hp & Hn & Hr & Hc & Ht).
  induction Hp as [|e pre He Hp IH]; intros f.
  - destruct f as [|f]; [reflexivity|]. cbn [map app next_changeset]. apply local_is_eq in Hn. rewrite Hn.
    cbn [map app] in Hd. inversion Hd as [|? ? Hi Hd']; subst. cbn [item_distinct] in Hi.
    apply readable_take in Hr as [b ->]; [|exact Hi].
    rewrite tags_loop_quiet; [reflexivity|exact Hd'|split; assumption].
  - cbn [map app] in *. inversion Hd as [|? ? Hi Hd']; subst.
    destruct f as [|f]; [reflexivity|]. rewrite next_skip by exact He. now apply IH.
Qed.

(** ** The tag reader *)

Lemma take_id_spec a : forall cur, distinct a -> proper a -> own_id norm a <> None ->
  take_id norm cur a = (own_id norm a, true).
Proof.
  assert (Hno : forall a cur, proper a -> raw_attr a "id" = None -> take_id norm cur a = (cur, true)).
  { induction a0 as [|[|key raw] a0 IH]; intros cur Hp Hr; [reflexivity|exfalso; apply Hp; now left|].
    rewrite raw_attr_cons in Hr. cbn [take_id]. destruct (local_is key "id"); [discriminate|].
    apply IH; [|exact Hr]. intros Hin. apply Hp. now right. }
  induction a as [|[|key raw] a IH]; intros cur Hd Hp Ho; [exfalso; apply Ho; reflexivity|exfalso; apply Hp; now left|].
  assert (Hp' : proper a) by (intros Hin; apply Hp; now right).
  unfold distinct, local_names in Hd. cbn [filter_map] in Hd. inversion Hd as [|? ? Hni Hnd]; subst.
  fold (local_names a) in *. unfold own_id in *. rewrite raw_attr_cons in *. cbn [take_id].
  destruct (local_is key "id") eqn:E.
  - apply local_is_eq in E. rewrite E in Hni. cbn [required] in *. unfold value in *.
    destruct (opt_bind (norm raw) parse_u64) as [v|]; [|congruence].
    apply Hno; [exact Hp'|]. now apply raw_attr_absent.
  - now apply IH.
Qed.

Lemma tr_replies_eq (s s' : tagreader) rs : tr_next norm s = tr_next norm s' ->
  Replies (tr_step norm) s' rs -> Replies (tr_step norm) s rs.
Proof.
  intros E H. inversion H; subst; unfold tr_step in *.
  - apply Replies_end with (s' := s'0). unfold tr_step. congruence.
  - apply Replies_item with (s' := s'0); [|assumption]. unfold tr_step. congruence.
  - apply Replies_error with (s' := s'0); [|assumption]. unfold tr_step. congruence.
Qed.

Lemma tr_body body close rest i rs :
  Forall (not_about "changeset") body -> tag_distinct body -> local_part close = lit "changeset" ->
  Replies (tr_step norm) (TR (Some i) [] rest) rs ->
  forall t, Replies (tr_step norm) (TR (Some i) t (map QEv body ++ QEv (QEnd close) :: rest))
              (repeat Error (bad_tags norm body) ++ Item (i, t ++ good_tags norm body) :: rs).
Proof.
  intros HF Ht Hc HR. apply local_is_eq in Hc.
  induction body as [|e body IH]; intros t.
  - cbn [map app bad_tags good_tags tag_elements filter_map filter length repeat]. rewrite app_nil_r.
    eapply Replies_item; [|exact HR]. unfold tr_step, tr_next. cbn. now rewrite Hc.
  - inversion HF as [|? ? He HF']; subst. specialize (fun Ht' => IH HF' Ht').
    unfold tag_distinct, bad_tags, good_tags, tag_elements in *. cbn [filter_map] in *.
    cbn [map app].
    assert (Hother : tag_attrs e = None -> next_tag norm (Some i) t (QEv e :: map QEv body ++ QEv (QEnd close) :: rest)
              = next_tag norm (Some i) t (map QEv body ++ QEv (QEnd close) :: rest)).
    { intros Ha. cbn [next_tag]. destruct e as [n a|n a|n|]; cbn [tag_attrs not_about] in *.
      - apply local_is_neq in He. rewrite He.
        destruct (str_eq_dec (local_part n) (lit "tag")) as [E|E]; [discriminate|].
        apply local_is_neq in E. now rewrite E.
      - destruct (str_eq_dec (local_part n) (lit "tag")) as [E|E]; [discriminate|].
        apply local_is_neq in E. now rewrite E.
      - apply local_is_neq in He. now rewrite He.
      - reflexivity. }
    assert (Htag : forall a, tag_attrs e = Some a -> distinct a ->
              next_tag norm (Some i) t (QEv e :: map QEv body ++ QEv (QEnd close) :: rest)
              = match tag_value norm a with
                | Some kv => next_tag norm (Some i) (t ++ [kv]) (map QEv body ++ QEv (QEnd close) :: rest)
                | None => (Error, TR (Some i) t (map QEv body ++ QEv (QEnd close) :: rest))
                end).
    { intros a Ha Hd. cbn [next_tag]. destruct e as [n a'|n a'|n|]; cbn [tag_attrs not_about] in *; try discriminate;
      try (apply local_is_neq in He; rewrite He);
      (destruct (str_eq_dec (local_part n) (lit "tag")) as [E|E]; [|discriminate];
       injection Ha as ->; apply local_is_eq in E; rewrite E, read_tag_spec by assumption; reflexivity). }
    destruct (tag_attrs e) as [a|].
    + inversion Ht as [|? ? Hda Ht']; subst. specialize (Htag a eq_refl Hda).
      cbn [filter filter_map]. destruct (tag_value norm a) as [kv|] eqn:Ev; cbn [is_some negb].
      * replace (t ++ kv :: filter_map (tag_value norm) (filter_map tag_attrs body))
          with ((t ++ [kv]) ++ filter_map (tag_value norm) (filter_map tag_attrs body))
          by (rewrite <- app_assoc; reflexivity).
        eapply tr_replies_eq; [|apply (IH Ht' (t ++ [kv]))]. exact Htag.
      * cbn [length repeat app]. eapply Replies_error; [|apply (IH Ht' t)]. exact Htag.
    + eapply tr_replies_eq; [|apply (IH Ht t)]. exact (Hother eq_refl).
Qed.

Theorem tag_reader_file ps : Forall wf_part ps -> Forall (tr_part norm) ps ->
  forall cur t, Replies (tr_step norm) (TR cur t (file ps)) (flat_map (tr_value norm) ps).
Proof.
  induction 1 as [|p ps Hp HF IH]; intros HT cur t.
  - apply Replies_end with (s' := TR cur t []). reflexivity.
  - inversion HT as [|? ? Hq HT']; subst. specialize (IH HT').
    unfold file in *. cbn [flat_map]. destruct p as [e|n a|n a body close]; cbn [render tr_value app].
    + eapply tr_replies_eq; [|apply (IH cur t)]. unfold tr_next. cbn [tr_id tr_tags tr_items next_tag].
      destruct e as [n a|n a|n|]; cbn [tr_part wf_part not_about] in *.
      * apply local_is_neq in Hp, Hq. now rewrite Hp, Hq.
      * apply local_is_neq in Hq. now rewrite Hq.
      * apply local_is_neq in Hp. now rewrite Hp.
      * reflexivity.
    + eapply tr_replies_eq; [|apply (IH cur t)]. unfold tr_next. cbn [tr_id tr_tags tr_items next_tag].
      destruct Hp as [Hn _]. unfold local_is. rewrite local_name_part, Hn. reflexivity.
    + destruct Hp as (Hn & Hc & Hd & Hbody & Ht). cbn [tr_part] in Hq. destruct Hq as [Hpa Ho].
      destruct (own_id norm a) as [i|] eqn:Ei; [|congruence].
      pose proof (take_id_spec a cur Hd Hpa) as Hid. rewrite Ei in Hid. specialize (Hid Ho).
      rewrite <- !app_assoc. cbn [app].
      eapply tr_replies_eq; [|apply (tr_body body close _ i _ Hbody Ht Hc (IH (Some i) []) [])].
      unfold tr_next. cbn [tr_id tr_tags tr_items next_tag].
      apply local_is_eq in Hn. rewrite Hn, Hid. reflexivity.
Qed.

(** Every iteration ends. *)
Lemma next_tag_shrinks l : forall cur t r s, next_tag norm cur t l = (r, s) -> r <> End ->
  (length (tr_items s) < length l)%nat.
Proof.
  induction l as [|i l IH]; intros cur t r s H Hr; [cbn in H; injection H as <- <-; congruence|].
  cbn [length]. destruct i as [e|]; [|injection H as <- <-; cbn; lia].
  cbn [next_tag] in H.
  destruct e as [n a|n a|n|];
  repeat match goal with
  | H : (_, _) = (_, _) |- _ => injection H as <- <-; cbn; lia
  | H : next_tag _ _ _ _ = _ |- _ => apply IH in H; [lia|assumption]
  | H : context [if ?c then _ else _] |- _ => destruct c
  | H : context [match ?c with _ => _ end] |- _ => destruct c
  end.
Qed.

Lemma tag_reader_ends s : exists rs, Replies (tr_step norm) s rs.
Proof.
  remember (length (tr_items s)) as n eqn:Hn. revert s Hn.
  induction n as [n IH] using lt_wf_ind. intros s Hn.
  destruct (tr_next norm s) as [r s'] eqn:E. pose proof E as E'. unfold tr_next in E'.
  pose proof (next_tag_shrinks _ _ _ _ _ E') as Hs.
  destruct r as [x| |].
  - destruct (IH (length (tr_items s'))) with (s := s') as [rs Hrs]; [subst; apply Hs; discriminate|reflexivity|].
    exists (Item x :: rs). eapply Replies_item; eassumption.
  - destruct (IH (length (tr_items s'))) with (s := s') as [rs Hrs]; [subst; apply Hs; discriminate|reflexivity|].
    exists (Error :: rs). eapply Replies_error; eassumption.
  - exists []. eapply Replies_end; eassumption.
Qed.

End Facts.

(** Replies are determined by the state. *)
Lemma Replies_det {St A} (step : St -> reply A -> St -> Prop) :
  (forall s r s' r' s'', step s r s' -> step s r' s'' -> r = r' /\ s' = s'') ->
  forall s l, Replies step s l -> forall l', Replies step s l' -> l = l'.
Proof.
  intros Hdet s l H. induction H as [s s1 H|s a s1 l H _ IH|s s1 l H _ IH]; intros l' H'; inversion H'; subst;
  match goal with A : step s ?r ?x, B : step s ?r' ?y |- _ => destruct (Hdet _ _ _ _ _ A B) as [E1 E2] end;
  try discriminate E1; try reflexivity.
  - injection E1 as <-. subst. f_equal. now apply IH.
  - subst. f_equal. now apply IH.
Qed.
