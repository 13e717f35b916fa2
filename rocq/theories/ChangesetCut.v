(** Reading a changeset file that goes on in some other way after its first
    parts. *)
From Coq Require Import String ZArith List Bool Lia.
From Verif Require Import Base Ints Timestamp Obj SpecJson Changesets SpecChangeset ChangesetFacts.
Import ListNotations.
Open Scope Z_scope.

(** The first calls return the replies and leave the reader in state [s']. *)
Inductive Calls {St A} (step : St -> reply A -> St -> Prop) : St -> list (reply A) -> St -> Prop :=
| Calls_none s : Calls step s [] s
| Calls_item s a s1 l s' : step s (Item a) s1 -> Calls step s1 l s' -> Calls step s (Item a :: l) s'
| Calls_error s s1 l s' : step s Error s1 -> Calls step s1 l s' -> Calls step s (Error :: l) s'.

Lemma Calls_Replies {St A} (step : St -> reply A -> St -> Prop) s rs s' rs' :
  Calls step s rs s' -> Replies step s' rs' -> Replies step s (rs ++ rs').
Proof.
  induction 1; intros H'; cbn [app]; [exact H'|eapply Replies_item; eauto|eapply Replies_error; eauto].
Qed.

Section Cut.
Variable norm : str -> option str.

Definition upto (l : list qitem) (rs : list (reply changeset)) (tail : list qitem) : Prop :=
  exists es, Forall skipped es /\ Calls (cs_step norm) l rs (map QEv es ++ tail).

Lemma upto_skip e r rs tail : skipped e -> upto r rs tail -> upto (QEv e :: r) rs tail.
Proof.
  intros He (es & H1 & H2). inversion H2; subst.
  - exists (e :: es). split; [now constructor|]. apply Calls_none.
  - exists es. split; [exact H1|]. eapply Calls_item; [|eassumption]. now apply cs_step_skip.
  - exists es. split; [exact H1|]. eapply Calls_error; [|eassumption]. now apply cs_step_skip.
Qed.

Lemma upto_skips es r rs tail : Forall skipped es -> upto r rs tail -> upto (map QEv es ++ r) rs tail.
Proof. induction 1; intros HR; cbn; [easy|]. apply upto_skip; auto. Qed.

Lemma upto_item s a s1 rs tail : cs_step norm s (Item a) s1 -> upto s1 rs tail -> upto s (Item a :: rs) tail.
Proof. intros H (es & H1 & H2). exists es. split; [exact H1|]. eapply Calls_item; eassumption. Qed.
Lemma upto_error s s1 rs tail : cs_step norm s Error s1 -> upto s1 rs tail -> upto s (Error :: rs) tail.
Proof. intros H (es & H1 & H2). exists es. split; [exact H1|]. eapply Calls_error; eassumption. Qed.

Lemma reads_parts tail ps : Forall wf_part ps ->
  exists rs, upto (file ps ++ tail) rs tail /\ Forall2 replies (file_value norm ps) rs.
Proof.
  induction 1 as [|p ps Hp HF IH].
  - exists []. split; [|constructor]. exists []. split; [constructor|]. apply Calls_none.
  - destruct IH as (rs & HR & HV). unfold file, file_value in *. cbn [flat_map filter_map].
    destruct p as [e|n a|n a body close]; cbn [render part_value].
    + exists rs. split; [|exact HV]. cbn [app]. apply upto_skip; [|exact HR].
      now apply not_about_skipped.
    + destruct Hp as [Hn Hd]. apply local_is_eq in Hn.
      rewrite changeset_value_eq by assumption. cbn [tag_elements filter_map map sequence].
      pose proof (build_as_map norm a [] Hd) as Hb. change (add_tags [] []) with (@nil (str * str)) in Hb.
      cbn [app]. unfold attrs_value in *. destruct (take_attrs norm builder0 a) as [b|] eqn:Eb.
      * destruct (build b []) as [c|] eqn:Ec.
        -- exists (Item c :: rs). split; [|constructor; assumption].
           eapply upto_item; [|exact HR]. exists 1%nat. cbn [next_changeset]. rewrite Hn, Eb. unfold built. now rewrite Ec.
        -- exists (Error :: rs). split; [|constructor; [exact I|assumption]].
           eapply upto_error; [|exact HR]. exists 1%nat. cbn [next_changeset]. rewrite Hn, Eb. unfold built. now rewrite Ec.
      * exists (Error :: rs). split; [|constructor; [exact I|assumption]].
        eapply upto_error; [|exact HR]. exists 1%nat. cbn [next_changeset]. now rewrite Hn, Eb.
    + destruct Hp as (Hn & Hc & Hd & Hbody & Ht). apply local_is_eq in Hn.
      rewrite changeset_value_eq by assumption.
      cbn [app]. rewrite <- !app_assoc. cbn [app].
      assert (Hrest : forall b2, (exists b1, body = b1 ++ b2) ->
                upto (map QEv b2 ++ QEv (QEnd close) :: flat_map render ps ++ tail) rs tail).
      { intros b2 [b1 ->]. apply upto_skips.
        - apply Forall_app in Hbody as [_ Hb2]. eapply Forall_impl; [|exact Hb2]. exact (not_about_skipped norm).
        - apply upto_skip; [exact I|exact HR]. }
      pose proof (tags_loop_body norm body close (flat_map render ps ++ tail) [] (S (length body)) Hbody Ht Hc (Nat.lt_succ_diag_r _)) as HL.
      destruct (take_attrs norm builder0 a) as [b|] eqn:Eb.
      * destruct (sequence (map (tag_value norm) (tag_elements body))) as [ts|].
        -- pose proof (build_as_map norm a ts Hd) as Hb. unfold attrs_value in *. rewrite Eb in *.
           destruct (build b ts) as [d|], (build b (add_tags [] ts)) as [c|] eqn:Ec; try contradiction.
           ++ exists (Item c :: rs). split; [|constructor; assumption].
              eapply upto_item; [|exact HR]. exists (S (S (length body))).
              cbn [next_changeset]. rewrite Hn, Eb, HL. unfold built. now rewrite Ec.
           ++ exists (Error :: rs). split; [|constructor; [exact I|assumption]].
              eapply upto_error; [|exact HR]. exists (S (S (length body))).
              cbn [next_changeset]. rewrite Hn, Eb, HL. unfold built. now rewrite Ec.
        -- destruct HL as (b1 & b2 & E & HL).
           exists (Error :: rs). split; [|constructor; [exact I|assumption]].
           eapply upto_error; [|apply (Hrest b2); now exists b1]. exists (S (S (length body))).
           cbn [next_changeset]. rewrite Hn, Eb, HL. reflexivity.
      * exists (Error :: rs). split.
        -- eapply upto_error; [|apply (Hrest body); now exists []]. exists 1%nat.
           cbn [next_changeset]. now rewrite Hn, Eb.
        -- constructor; [|assumption]. unfold attrs_value. rewrite Eb. destruct (sequence _); exact I.
Qed.

End Cut.
