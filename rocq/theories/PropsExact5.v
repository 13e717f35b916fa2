(** Exactly where C48, C50 and C72 hold. *)
From Coq Require Import String ZArith List Bool Lia.
From Coq Require Import ZifyBool ZifyNat.
From Verif Require Import Base SpecNum Ints Timestamp Obj SpecJson SpecIter Changesets SpecChangeset ChangesetFacts ChangesetTags
  PropsChangeset XmlToken XmlRead XmlReadBack SpecXmlRead XmlReadFacts PropsXml PropsXmlMore.
Import ListNotations.
Open Scope Z_scope.

(** ** C48 *)

(** On every input next_changeset either returns or runs for ever (no number of steps is
    enough), the latter exactly if the input ends inside a changeset. *)
Theorem C48_exact : forall norm l, Forall item_distinct l ->
  ((exists fuel x, next_changeset norm fuel l = Done x) <-> ~ ends_inside norm l) /\
  ((forall fuel, next_changeset norm fuel l = Out) <-> ends_inside norm l).
Proof.
  intros norm l Hd. split; [now apply C48_terminates_partial|]. split.
  - intros H. destruct (next_stops norm l Hd) as [[x Hx]|E]; [|exact E]. rewrite H in Hx. discriminate.
  - now apply C48_terminates_refuted.
Qed.
Print Assumptions C48_exact.

(** ** C50 *)

(** Attributes without syntax errors, tags only inside changesets. *)
Definition tidy_part (p : part) : Prop :=
  match p with
  | Noise e => not_about "tag" e
  | CEmpty _ _ => True
  | CFull _ a _ _ => proper a
  end.

(** The replies to a file of such pieces: every changeset with content gives one error for
    a bad id, one for each bad tag, and then its good tags under its own id if it has one,
    otherwise under the last id seen in a changeset with content, otherwise an error. *)
Fixpoint replies_from (norm : str -> option str) (last : option Z) (ps : list part) : list (reply (Z * tags)) :=
  match ps with
  | [] => []
  | CFull _ a body _ :: r =>
      let id := match own_id norm a with Some i => Some i | None => last end in
      (if is_some (raw_attr a "id") && negb (is_some (own_id norm a)) then [Error] else []) ++
      repeat Error (bad_tags norm body) ++
      match id with Some i => Item (i, good_tags norm body) | None => Error end :: replies_from norm id r
  | _ :: r => replies_from norm last r
  end.

Lemma tr_body_noid norm body close rest rs :
  Forall (not_about "changeset") body -> tag_distinct body -> local_part close = lit "changeset" ->
  (forall t, Replies (tr_step norm) (TR None t rest) rs) ->
  forall t, Replies (tr_step norm) (TR None t (map QEv body ++ QEv (QEnd close) :: rest))
              (repeat Error (bad_tags norm body) ++ Error :: rs).
Proof.
  intros HF Ht Hc HR. apply local_is_eq in Hc.
  induction body as [|e body IH]; intros t.
  - cbn [map app bad_tags good_tags tag_elements filter_map filter length repeat].
    eapply Replies_error; [|apply (HR t)]. unfold tr_step, tr_next. cbn. now rewrite Hc.
  - inversion HF as [|? ? He HF']; subst. specialize (fun Ht' => IH HF' Ht').
    unfold tag_distinct, bad_tags, tag_elements in *. cbn [filter_map] in *.
    cbn [map app].
    assert (Hother : tag_attrs e = None -> next_tag norm None t (QEv e :: map QEv body ++ QEv (QEnd close) :: rest)
              = next_tag norm None t (map QEv body ++ QEv (QEnd close) :: rest)).
    { intros Ha. cbn [next_tag]. destruct e as [n a|n a|n|]; cbn [tag_attrs not_about] in *.
      - apply local_is_neq in He. rewrite He.
        destruct (str_eq_dec (local_part n) (lit "tag")) as [E|E]; [discriminate|].
        apply local_is_neq in E. now rewrite E.
      - destruct (str_eq_dec (local_part n) (lit "tag")) as [E|E]; [discriminate|].
        apply local_is_neq in E. now rewrite E.
      - apply local_is_neq in He. now rewrite He.
      - reflexivity. }
    assert (Htag : forall a, tag_attrs e = Some a -> distinct a ->
              next_tag norm None t (QEv e :: map QEv body ++ QEv (QEnd close) :: rest)
              = match tag_value norm a with
                | Some kv => next_tag norm None (t ++ [kv]) (map QEv body ++ QEv (QEnd close) :: rest)
                | None => (Error, TR None t (map QEv body ++ QEv (QEnd close) :: rest))
                end).
    { intros a Ha Hd. cbn [next_tag]. destruct e as [n a'|n a'|n|]; cbn [tag_attrs not_about] in *; try discriminate;
      try (apply local_is_neq in He; rewrite He);
      (destruct (str_eq_dec (local_part n) (lit "tag")) as [E|E]; [|discriminate];
       injection Ha as ->; apply local_is_eq in E; rewrite E, read_tag_spec by assumption; reflexivity). }
    destruct (tag_attrs e) as [a|].
    + inversion Ht as [|? ? Hda Ht']; subst. specialize (Htag a eq_refl Hda).
      cbn [filter filter_map]. destruct (tag_value norm a) as [kv|] eqn:Ev; cbn [is_some negb].
      * eapply tr_replies_eq; [|apply (IH Ht' (t ++ [kv]))]. exact Htag.
      * cbn [length repeat app]. eapply Replies_error; [|apply (IH Ht' t)]. exact Htag.
    + eapply tr_replies_eq; [|apply (IH Ht t)]. exact (Hother eq_refl).
Qed.

(** What comes out, for every such file, when the tags still held ([t]) cannot be returned:
    there are none, or there is no id yet. *)
Lemma replies_file norm ps : Forall wf_part ps -> Forall tidy_part ps -> forall last t, last = None \/ t = [] ->
  Replies (tr_step norm) (TR last t (file ps)) (replies_from norm last ps).
Proof.
  induction 1 as [|p ps Hp HF IH]; intros HT last t Hl.
  - apply Replies_end with (s' := TR last t []). reflexivity.
  - inversion HT as [|? ? Hq HT']; subst. specialize (IH HT').
    unfold file in *. cbn [flat_map]. destruct p as [e|n a|n a body close]; cbn [render replies_from app].
    + eapply tr_replies_eq; [|apply (IH last t Hl)]. unfold tr_next. cbn [tr_id tr_tags tr_items next_tag].
      destruct e as [n a|n a|n|]; cbn [tidy_part wf_part not_about] in *.
      * apply local_is_neq in Hp, Hq. now rewrite Hp, Hq.
      * apply local_is_neq in Hq. now rewrite Hq.
      * apply local_is_neq in Hp. now rewrite Hp.
      * reflexivity.
    + eapply tr_replies_eq; [|apply (IH last t Hl)]. unfold tr_next. cbn [tr_id tr_tags tr_items next_tag].
      destruct Hp as [Hn _]. unfold local_is. rewrite local_name_part, Hn. reflexivity.
    + destruct Hp as (Hn & Hc & Hd & Hbody & Ht). cbn [tidy_part] in Hq.
      rewrite <- !app_assoc. cbn [app]. apply local_is_eq in Hn. unfold own_id.
      destruct (raw_attr a "id") as [raw|] eqn:Er; cbn [required is_some andb].
      * destruct (value norm parse_u64 raw) as [i|] eqn:Ev; cbn [is_some negb andb app].
        -- eapply tr_replies_eq; [|apply (tr_body norm body close _ i _ Hbody Ht Hc (IH (Some i) [] (or_intror eq_refl)) [])].
           unfold tr_next. cbn [tr_id tr_tags tr_items next_tag]. rewrite Hn, (take_id_spec norm a last Hd Hq).
           { unfold own_id. now rewrite Er; cbn [required]; rewrite Ev. }
           unfold own_id. rewrite Er. cbn [required]. rewrite Ev. discriminate.
        -- eapply Replies_error.
           ++ unfold tr_step, tr_next. cbn [tr_id tr_tags tr_items next_tag]. rewrite Hn, (take_id_bad norm a raw last Hq Hd Er Ev). reflexivity.
           ++ destruct last as [i|].
              ** destruct Hl as [C| ->]; [discriminate|].
                 apply (tr_body norm body close _ i _ Hbody Ht Hc (IH (Some i) [] (or_intror eq_refl)) []).
              ** apply (tr_body_noid norm body close _ _ Hbody Ht Hc (fun t => IH None t (or_introl eq_refl)) t).
      * cbn [app]. destruct last as [i|].
        -- eapply tr_replies_eq; [|apply (tr_body norm body close _ i _ Hbody Ht Hc (IH (Some i) [] (or_intror eq_refl)) [])].
           unfold tr_next. cbn [tr_id tr_tags tr_items next_tag]. now rewrite Hn, take_id_none.
        -- eapply tr_replies_eq; [|apply (tr_body_noid norm body close _ _ Hbody Ht Hc (fun t => IH None t (or_introl eq_refl)) [])].
           unfold tr_next. cbn [tr_id tr_tags tr_items next_tag]. now rewrite Hn, take_id_none.
Qed.

(** The changesets with content, in order: their own id, if they have one, and good tags. *)
Definition own_tags (norm : str -> option str) (p : part) : list (option Z * tags) :=
  match p with CFull _ a body _ => [(own_id norm a, good_tags norm body)] | _ => [] end.
(** The tags returned, in order, with the id they are returned under. *)
Fixpoint returned {A} (rs : list (reply A)) : list A :=
  match rs with [] => [] | Item a :: r => a :: returned r | _ :: r => returned r end.
(** A changeset with content but without id of its own comes after one with an id. *)
Fixpoint id_missing_after (norm : str -> option str) (seen : bool) (ps : list part) : Prop :=
  match ps with
  | [] => False
  | CFull _ a _ _ :: r =>
      match own_id norm a with
      | Some _ => id_missing_after norm true r
      | None => seen = true \/ id_missing_after norm seen r
      end
  | _ :: r => id_missing_after norm seen r
  end.

Lemma returned_app {A} (a b : list (reply A)) : returned (a ++ b) = returned a ++ returned b.
Proof. induction a as [|[x| |] a IH]; cbn [app returned]; congruence. Qed.
Lemma returned_errors {A} n : returned (repeat (@Error A) n) = [].
Proof. induction n as [|n IH]; [reflexivity|exact IH]. Qed.

Lemma returned_own norm ps : forall last,
  (returned (replies_from norm last ps) = filter_map (fun p => opt_map (fun i => (i, snd p)) (fst p)) (flat_map (own_tags norm) ps)
   <-> ~ id_missing_after norm (is_some last) ps) /\
  (length (filter_map (fun p => opt_map (fun i => (i, snd p)) (fst p)) (flat_map (own_tags norm) ps)) <=
   length (returned (replies_from norm last ps)))%nat.
Proof.
  induction ps as [|p ps IH]; intros last; cbn [replies_from flat_map own_tags id_missing_after].
  { split; [|reflexivity]. split; [intros _ []|reflexivity]. }
  destruct p as [e|n a|n a body close]; cbn [own_tags app]; try apply IH.
  rewrite !returned_app, returned_errors. cbn [app].
  assert (Er : forall b : bool, returned (if b then [@Error (Z * tags)] else []) = []) by (intros []; reflexivity).
  rewrite Er. cbn [app filter_map fst snd]. destruct (own_id norm a) as [i|]; cbn [opt_map].
  - destruct (IH (Some i)) as (A & B). cbn [is_some] in A. cbn [returned length]. split; [|lia].
    rewrite <- A. split; [intros E; now injection E|intros ->; reflexivity].
  - destruct last as [i|]; cbn [returned is_some].
    + destruct (IH (Some i)) as (A & B). cbn [length]. split; [|lia]. split.
      * intros E. apply (f_equal (@length _)) in E. cbn [length] in E. exfalso. lia.
      * intros C. exfalso. apply C. now left.
    + destruct (IH None) as (A & B). cbn [is_some] in A. split; [|exact B]. rewrite A. split; [|tauto].
      intros C [D|D]; [discriminate|contradiction].
Qed.

(** Exactly what the tag reader says about every such file; and it returns just each
    changeset's good tags under the changeset's own id, exactly if no changeset without
    id follows one with an id. *)
Theorem C50_exact : forall norm ps, Forall wf_part ps -> Forall tidy_part ps ->
  exists rs, Replies (tr_step norm) (tr_new (file ps)) rs /\ rs = replies_from norm None ps /\
    (returned rs = filter_map (fun p => opt_map (fun i => (i, snd p)) (fst p)) (flat_map (own_tags norm) ps) <->
     ~ id_missing_after norm false ps).
Proof.
  intros norm ps W T. exists (replies_from norm None ps). split; [apply replies_file; auto|]. split; [reflexivity|].
  exact (proj1 (returned_own norm ps None)).
Qed.
Print Assumptions C50_exact.
Example C50_exact_ex : Forall wf_part ex_bad /\ Forall tidy_part ex_bad /\ id_missing_after ex_norm false ex_bad /\
  ~ id_missing_after ex_norm false (rev ex_bad) /\
  replies_from ex_norm None ex_bad = [Error; Item (10, [(lit "a", lit "1"); (lit "b", lit "2")]); Item (10, [(lit "c", lit "3")])] /\
  replies_from ex_norm None (rev ex_bad) = [Error; Error; Item (10, [(lit "a", lit "1"); (lit "b", lit "2")])].
Proof.
  split; [|split; [|split; [|split; [|split; reflexivity]]]].
  - repeat constructor; cbn; intuition discriminate.
  - constructor; [|constructor; [|constructor]]; intros C; cbn in C; intuition discriminate.
  - cbn. now left.
  - cbn. intuition discriminate.
Qed.

(** ** C72 *)

(** An object in a <delete> block is reported as deleted exactly if its element says
    visible="false"; the block plays no part. *)
Theorem C72_exact : forall pre a0 post n a body rest o rest', Forall quiet pre -> Forall quiet post ->
  In n (map lit ["node"; "way"; "relation"]%string) -> obj_content body -> Forall distinct_attrs (EStart n a :: body) ->
  osc_next (map IEv ((pre ++ [EStart (lit "delete") a0] ++ post) ++ EStart n a :: body ++ [EEnd n]) ++ rest) = Ret (Some o, rest') ->
  (m_deleted (s_meta o) = true <-> attribute a "visible" = Some (lit "false")).
Proof.
  intros pre a0 post n a body rest o rest' Hp Hq Hn Hb Hd H.
  assert (Q : Forall quiet (pre ++ [EStart (lit "delete") a0] ++ post)).
  { apply Forall_app. split; [exact Hp|]. apply Forall_app. split; [|exact Hq]. constructor; [split; reflexivity|constructor]. }
  rewrite (proj2 (C31_element _ n a body rest Q Hn Hb Hd)) in H. injection H as H _. unfold object_of in H.
  destruct (opt_bind (attribute a "id") parse_i64) as [id|]; [|discriminate]. cbn [opt_bind] in H.
  assert (M : m_deleted (meta_of (attribute a) id) = true <-> attribute a "visible" = Some (lit "false")).
  { unfold meta_of; cbn [m_deleted]. destruct (attribute a "visible") as [v|]; [|split; discriminate].
    rewrite str_eqb_eq. split; [intros ->; reflexivity|intros E; now injection E]. }
  destruct (str_eqb n (lit "node")).
  - destruct (attribute a "lat"); [|discriminate]. destruct (attribute a "lon"); [|discriminate]. injection H as <-. exact M.
  - destruct (str_eqb n (lit "way")); [injection H as <-; exact M|]. destruct (str_eqb n (lit "relation")); [|discriminate]. injection H as <-. exact M.
Qed.
Print Assumptions C72_exact.
Example C72_exact_ex : exists o rest, osc_next (xml_items (fun c => c) (lit
    "<osmChange version='0.6'><delete><way id='5' visible='false'/><way id='6' visible='true'/></delete></osmChange>"))
    = Ret (Some o, rest) /\ m_id (s_meta o) = 5 /\ m_deleted (s_meta o) = true /\
  exists o' rest', osc_next rest = Ret (Some o', rest') /\ m_id (s_meta o') = 6 /\ m_deleted (s_meta o') = false.
Proof.
  do 2 eexists. split; [vm_compute; reflexivity|]. split; [reflexivity|]. split; [reflexivity|].
  do 2 eexists. split; [vm_compute; reflexivity|]. split; reflexivity.
Qed.
