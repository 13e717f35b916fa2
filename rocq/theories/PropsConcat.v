(** C125: files put end to end.  C126: every line of an OPL file is read on its own. *)
From Coq Require Import String ZArith List Bool Lia.
From Verif Require Import Base Ints Utf8 Timestamp Obj SpecIter SpecJson XmlToken XmlRead SpecXmlRead Changesets QuickXml SpecChangeset
  ChangesetFacts ChangesetTags ChangesetCut DumpFacts DumpWrite PropsChangeset PropsXml PropsXmlMore.
From Verif Require SpecDump SpecDumpText PropsDump PropsWrong XmlDoc XmlDocRead SpecXmlDoc PropsDoc SpecOplLine Opl PropsOplLine XmlRound XmlRef SpecXmlRef.
Import ListNotations.
Open Scope Z_scope.

(** ** Changeset dumps *)

(** Text, comments and so on are passed over. *)
Definition shown (i : qitem) : bool := match i with QEv QOther => false | _ => true end.
Definition noq (l : list qitem) : list qitem := filter shown l.
Lemma noq_app a b : noq (a ++ b) = noq a ++ noq b.
Proof. apply filter_app. Qed.

Lemma tags_noq norm l : forall f t r m, tags_loop norm f t (noq l) = Done (r, m) -> exists f' l', tags_loop norm f' t l = Done (r, l') /\ noq l' = m.
Proof.
  induction l as [|i l IH]; intros f t r m H.
  - exfalso. revert H. cbn [noq filter]. induction f; [discriminate|]. cbn [tags_loop]. exact IHf.
  - assert (S1 : forall t0 f0, tags_loop norm f0 t0 (noq l) = Done (r, m) ->
      (forall f', tags_loop norm (S f') t (i :: l) = tags_loop norm f' t0 l) -> exists f' l', tags_loop norm f' t (i :: l) = Done (r, l') /\ noq l' = m).
    { intros t0 f0 H0 E. destruct (IH _ _ _ _ H0) as (f' & l' & H' & N). exists (S f'), l'. now rewrite E. }
    assert (D : forall o, Done (o, noq l) = Done (r, m) -> (forall f', tags_loop norm (S f') t (i :: l) = Done (o, l)) ->
      exists f' l', tags_loop norm f' t (i :: l) = Done (r, l') /\ noq l' = m).
    { intros o E E'. injection E as <- <-. exists 1%nat, l. now rewrite E'. }
    destruct i as [[n a|n a|n|]|]; cbn [noq filter shown] in H; fold (noq l) in H.
    4: now apply (S1 t f H).
    all: destruct f as [|f]; [discriminate|]; cbn [tags_loop] in H.
    + destruct (local_is n "tag") eqn:L; [destruct (read_tag norm a) as [[k v]|] eqn:R|].
      * apply (S1 _ f H). intros f'. cbn [tags_loop]. now rewrite L, R.
      * apply (D _ H). intros f'. cbn [tags_loop]. now rewrite L, R.
      * apply (S1 _ f H). intros f'. cbn [tags_loop]. now rewrite L.
    + destruct (local_is n "tag") eqn:L; [destruct (read_tag norm a) as [[k v]|] eqn:R|].
      * apply (S1 _ f H). intros f'. cbn [tags_loop]. now rewrite L, R.
      * apply (D _ H). intros f'. cbn [tags_loop]. now rewrite L, R.
      * apply (S1 _ f H). intros f'. cbn [tags_loop]. now rewrite L.
    + destruct (local_is n "changeset") eqn:L; [apply (D _ H)|apply (S1 _ f H)]; intros f'; cbn [tags_loop]; now rewrite L.
    + apply (D _ H). reflexivity.
Qed.
Lemma next_noq norm l : forall f r m, next_changeset norm f (noq l) = Done (r, m) -> exists f' l', next_changeset norm f' l = Done (r, l') /\ noq l' = m.
Proof.
  induction l as [|i l IH]; intros f r m H.
  - exists f, []. destruct f; [discriminate|]. cbn [next_changeset noq filter] in *. now injection H as <- <-.
  - assert (S1 : forall f0, next_changeset norm f0 (noq l) = Done (r, m) ->
      (forall f', next_changeset norm (S f') (i :: l) = next_changeset norm f' l) -> exists f' l', next_changeset norm f' (i :: l) = Done (r, l') /\ noq l' = m).
    { intros f0 H0 E. destruct (IH _ _ _ H0) as (f' & l' & H' & N). exists (S f'), l'. now rewrite E. }
    assert (D : forall o, Done (o, noq l) = Done (r, m) -> (forall f', next_changeset norm (S f') (i :: l) = Done (o, l)) ->
      exists f' l', next_changeset norm f' (i :: l) = Done (r, l') /\ noq l' = m).
    { intros o E E'. injection E as <- <-. exists 1%nat, l. now rewrite E'. }
    destruct i as [[n a|n a|n|]|]; cbn [noq filter shown] in H; fold (noq l) in H.
    4: now apply (S1 f H).
    all: destruct f as [|f]; [discriminate|]; cbn [next_changeset] in H.
    + destruct (local_is n "changeset") eqn:L; [destruct (take_attrs norm builder0 a) as [b|] eqn:R|].
      * destruct (tags_loop norm f [] (noq l)) as [|[o m0]] eqn:E; [discriminate|]. destruct (tags_noq _ _ _ _ _ _ E) as (f' & l' & E' & N).
        destruct o as [t|]; injection H as <- <-; exists (S f'), l'; cbn [next_changeset]; now rewrite L, R, E'.
      * apply (D _ H). intros f'. cbn [next_changeset]. now rewrite L, R.
      * apply (S1 f H). intros f'. cbn [next_changeset]. now rewrite L.
    + destruct (local_is n "changeset") eqn:L; [destruct (take_attrs norm builder0 a) as [b|] eqn:R|].
      * apply (D _ H). intros f'. cbn [next_changeset]. now rewrite L, R.
      * apply (D _ H). intros f'. cbn [next_changeset]. now rewrite L, R.
      * apply (S1 f H). intros f'. cbn [next_changeset]. now rewrite L.
    + apply (S1 f H). reflexivity.
    + apply (D _ H). reflexivity.
Qed.
Lemma noq_replies norm m rs : Replies (cs_step norm) m rs -> forall l, m = noq l -> Replies (cs_step norm) l rs.
Proof.
  induction 1 as [s s' (f & H)|s a s' l0 (f & H) _ IH|s s' l0 (f & H) _ IH]; intros l ->; apply next_noq in H as (f' & l' & H & N);
    [eapply Replies_end; exists f'; exact H
    |eapply Replies_item; [exists f'; exact H|apply IH; symmetry; exact N]|eapply Replies_error; [exists f'; exact H|apply IH; symmetry; exact N]].
Qed.

(** The other direction. *)
Lemma tags_mono norm f : forall t l x, tags_loop norm f t l = Done x -> tags_loop norm (S f) t l = Done x.
Proof.
  induction f as [|f IH]; [discriminate|]. intros t l x H. cbn [tags_loop] in H. remember (S f) as g. cbn [tags_loop]. subst g.
  destruct l as [|[[n a|n a|n|]|] r]; auto; destruct (local_is _ _); auto; destruct (read_tag norm a) as [[k v]|]; auto.
Qed.
Lemma next_mono norm f : forall l x, next_changeset norm f l = Done x -> next_changeset norm (S f) l = Done x.
Proof.
  induction f as [|f IH]; [discriminate|]. intros l x H. cbn [next_changeset] in H. remember (S f) as g. cbn [next_changeset]. subst g.
  destruct l as [|[[n a|n a|n|]|] r]; auto; destruct (local_is _ _); auto; destruct (take_attrs norm builder0 a) as [b|]; auto.
  destruct (tags_loop norm f [] r) as [|x1] eqn:E; [discriminate|]. now rewrite (tags_mono _ _ _ _ _ E).
Qed.
Lemma tags_to_noq norm f : forall t l r l', tags_loop norm f t l = Done (r, l') -> tags_loop norm f t (noq l) = Done (r, noq l').
Proof.
  induction f as [|f IH]; [discriminate|]. intros t l r l' H. destruct l as [|[[n a|n a|n|]|] l]; cbn [noq filter shown]; try fold (noq l).
  - exfalso. clear IH. revert H. generalize (S f). induction n; [discriminate|]. cbn [tags_loop]. exact IHn.
  - cbn [tags_loop] in *. destruct (local_is n "tag"); [|auto]. destruct (read_tag norm a) as [[k v]|]; [auto|]. now injection H as <- <-.
  - cbn [tags_loop] in *. destruct (local_is n "tag"); [|auto]. destruct (read_tag norm a) as [[k v]|]; [auto|]. now injection H as <- <-.
  - cbn [tags_loop] in *. destruct (local_is n "changeset"); [now injection H as <- <-|auto].
  - cbn [tags_loop] in H. apply tags_mono. now apply IH.
  - cbn [tags_loop] in *. now injection H as <- <-.
Qed.
Lemma next_to_noq norm f : forall l r l', next_changeset norm f l = Done (r, l') -> next_changeset norm f (noq l) = Done (r, noq l').
Proof.
  induction f as [|f IH]; [discriminate|]. intros l r l' H. destruct l as [|[[n a|n a|n|]|] l]; cbn [noq filter shown]; try fold (noq l).
  - cbn [next_changeset] in *. now injection H as <- <-.
  - cbn [next_changeset] in *. destruct (local_is n "changeset"); [|auto]. destruct (take_attrs norm builder0 a) as [b|]; [|now injection H as <- <-].
    destruct (tags_loop norm f [] l) as [|[o l0]] eqn:E; [discriminate|]. rewrite (tags_to_noq _ _ _ _ _ _ E). destruct o; now injection H as <- <-.
  - cbn [next_changeset] in *. destruct (local_is n "changeset"); [|auto]. destruct (take_attrs norm builder0 a) as [b|]; now injection H as <- <-.
  - cbn [next_changeset] in *. auto.
  - cbn [next_changeset] in H. apply next_mono. now apply IH.
  - cbn [next_changeset] in *. now injection H as <- <-.
Qed.
Lemma replies_noq norm l rs : Replies (cs_step norm) l rs -> Replies (cs_step norm) (noq l) rs.
Proof.
  induction 1 as [s s' (f & H)|s a s' l (f & H) _ IH|s s' l (f & H) _ IH]; [eapply Replies_end|eapply Replies_item; [|exact IH]|eapply Replies_error; [|exact IH]];
    exists f; apply next_to_noq; exact H.
Qed.

(** Replies to items put together. *)
Lemma tags_more norm f t : forall ts l r l', tags_loop norm f ts l = Done (r, l') -> tags_loop norm f ts (l ++ t) = Done (r, l' ++ t).
Proof.
  induction f as [|f IH]; [discriminate|]. intros ts l r l' H. destruct l as [|[[n a|n a|n|]|] l].
  - exfalso. clear IH. revert H. generalize (S f). induction n; [discriminate|]. cbn [tags_loop]. exact IHn.
  - cbn [tags_loop app] in *. destruct (local_is n "tag"); [|auto]. destruct (read_tag norm a) as [[k v]|]; [auto|]. now injection H as <- <-.
  - cbn [tags_loop app] in *. destruct (local_is n "tag"); [|auto]. destruct (read_tag norm a) as [[k v]|]; [auto|]. now injection H as <- <-.
  - cbn [tags_loop app] in *. destruct (local_is n "changeset"); [now injection H as <- <-|auto].
  - cbn [tags_loop app] in *. auto.
  - cbn [tags_loop app] in *. now injection H as <- <-.
Qed.
Lemma next_more norm t f : forall l r l', next_changeset norm f l = Done (r, l') ->
  r <> End /\ next_changeset norm f (l ++ t) = Done (r, l' ++ t)
  \/ r = End /\ forall g x, next_changeset norm g t = Done x -> exists g', next_changeset norm g' (l ++ t) = Done x.
Proof.
  assert (U : forall b t, built b t <> End) by (intros b t0; unfold built; now destruct (build b t0)).
  induction f as [|f IH]; [discriminate|]. intros l r l' H.
  assert (K : forall i l, (forall g t, next_changeset norm (S g) (i :: t) = next_changeset norm g t) -> next_changeset norm f l = Done (r, l') ->
    r <> End /\ next_changeset norm (S f) ((i :: l) ++ t) = Done (r, l' ++ t)
    \/ r = End /\ forall g x, next_changeset norm g t = Done x -> exists g', next_changeset norm g' ((i :: l) ++ t) = Done x).
  { intros i l0 E H0. destruct (IH _ _ _ H0) as [[N A]|[A B]].
    - left. split; [exact N|]. cbn [app]. now rewrite E.
    - right. split; [exact A|]. intros g x G. destruct (B g x G) as (g' & G'). exists (S g'). cbn [app]. now rewrite E. }
  destruct l as [|[[n a|n a|n|]|] l].
  - right. cbn [next_changeset] in H. injection H as <- <-. split; [reflexivity|]. intros g x G. now exists g.
  - destruct (local_is n "changeset") eqn:L.
    + left. cbn [next_changeset app] in *. rewrite L in *. destruct (take_attrs norm builder0 a) as [b|]; [|injection H as <- <-; now split].
      destruct (tags_loop norm f [] l) as [|[o l0]] eqn:E; [discriminate|]. rewrite (tags_more _ _ t _ _ _ _ E). destruct o; injection H as <- <-; (split; [easy || apply U|reflexivity]).
    + cbn [next_changeset] in H. rewrite L in H. apply K; [|exact H]. intros. cbn [next_changeset]. now rewrite L.
  - destruct (local_is n "changeset") eqn:L.
    + left. cbn [next_changeset app] in *. rewrite L in *. destruct (take_attrs norm builder0 a) as [b|]; injection H as <- <-; (split; [easy || apply U|reflexivity]).
    + cbn [next_changeset] in H. rewrite L in H. apply K; [|exact H]. intros. cbn [next_changeset]. now rewrite L.
  - apply K; [reflexivity|exact H].
  - apply K; [reflexivity|exact H].
  - left. cbn [next_changeset app] in *. injection H as <- <-; (split; [easy || apply U|reflexivity]).
Qed.
Lemma replies_app norm l rs : Replies (cs_step norm) l rs -> forall l' rs', Replies (cs_step norm) l' rs' ->
  Replies (cs_step norm) (l ++ l') (rs ++ rs').
Proof.
  induction 1 as [s s' (f & H)|s a s' l0 (f & H) _ IH|s s' l0 (f & H) _ IH]; intros l' rs' R; destruct (next_more _ l' _ _ _ _ H) as [[E A]|[E B]]; try discriminate E; try (now elim E).
  - cbn [app]. inversion R as [? ? (g & G)|? ? ? ? (g & G) R'|? ? ? (g & G) R']; subst; destruct (B _ _ G) as (g' & G');
      [eapply Replies_end|eapply Replies_item; [|exact R']|eapply Replies_error; [|exact R']]; exists g'; exact G'.
  - cbn [app]. eapply Replies_item; [exists f; exact A|]. now apply IH.
  - cbn [app]. eapply Replies_error; [exists f; exact A|]. now apply IH.
Qed.

Definition after_items (o : list qitem) (p : qst) : qst := Q (q_mode p) (q_stack p) (o ++ q_out p).
Lemma go_after o p m l : q_go (after_items o p) m l = after_items o (q_go p m l).
Proof. unfold q_go, after_items. cbn [q_mode q_stack q_out]. now rewrite app_assoc. Qed.
Lemma tag_after o p buf : q_tag (after_items o p) buf = after_items o (q_tag p buf).
Proof.
  assert (P : forall buf, q_open (after_items o p) buf = after_items o (q_open p buf)).
  { intros u. unfold q_open. destruct (rev u) as [|c r]; [unfold after_items; cbn [q_mode q_stack q_out]; now rewrite app_assoc|].
    destruct (c =? 47); [destruct (tag_parts (rev r)); apply go_after|]. destruct (tag_parts u). unfold after_items. cbn [q_mode q_stack q_out]. now rewrite app_assoc. }
  unfold q_tag. destruct buf as [|c r]; [apply P|]. destruct (c =? 47); [|apply P].
  unfold q_end. cbn [after_items q_stack q_out]. fold (after_items o p). destruct (q_stack p); [apply go_after|]. unfold after_items. cbn [q_mode q_stack q_out]. now rewrite app_assoc.
Qed.
Lemma step_after o p b : q_step (after_items o p) b = after_items o (q_step p b).
Proof.
  unfold q_step. cbn [after_items q_mode]. fold (after_items o p). destruct (q_mode p) as [s| | |[q|] u|[|] q|u|d|d|];
    repeat match goal with |- context [if ?c then _ else _] => destruct c end; try apply go_after; try apply tag_after; reflexivity.
Qed.
Lemma run_after o l : forall p, q_run (after_items o p) l = after_items o (q_run p l).
Proof. induction l as [|b l IH]; intros p; [reflexivity|]. rewrite !q_run_cons, step_after. apply IH. Qed.

(** The items of a complete file and another one. *)
Lemma items_concat l b b' : SpecDump.text_of l b -> SpecDump.opened [] l = Some [] -> noq (q_items (b ++ b')) = noq (q_items b) ++ noq (q_items b').
Proof.
  intros T O. rewrite (text_items l b T). destruct T as (xs & t & Hx & Ht & -> & -> & _).
  rewrite opened_app in O. destruct (SpecDump.opened [] (flat_map SpecDump.piece_events xs)) as [st|] eqn:E; [|discriminate].
  assert (st = []) by (destruct t; cbn in O; congruence). subst st. clear O.
  unfold q_items at 1. rewrite <- app_assoc, q_run_app. unfold q_start at 1 2. rewrite (run_pieces xs Hx _ _ _ E), q_run_app, run_text by exact Ht. cbn [app].
  set (o := map QEv (flat_map SpecDump.piece_events xs)).
  assert (R : forall s, noq (q_out (q_run (Q (QText s) [] o) b') ++ match q_mode (q_run (Q (QText s) [] o) b') with QText s => q_flush s | QDone => [] | _ => [QErr] end)
    = noq o ++ noq (q_items b')).
  { intros s. replace (Q (QText s) [] o) with (after_items o (Q (QText s) [] [])) by (unfold after_items; cbn; now rewrite app_nil_r).
    rewrite run_after. cbn [after_items q_out q_mode]. rewrite <- app_assoc, noq_app. f_equal. unfold q_items, q_start. destruct s; [|reflexivity].
    destruct b' as [|c b']; [reflexivity|]. rewrite !q_run_cons.
    assert (X : q_step (Q (QText true) [] []) c = q_step (Q (QText false) [] []) c
      \/ q_step (Q (QText true) [] []) c = after_items [QEv QOther] (q_step (Q (QText false) [] []) c)).
    { unfold q_step. cbn [q_mode]. destruct (c =? 60); [now right|]. destruct (c =? 38); [now right|]. now left. }
    destruct X as [-> | ->]; [reflexivity|]. rewrite run_after. cbn [after_items q_out q_mode]. now rewrite <- app_assoc, noq_app. }
  rewrite R. rewrite map_app, noq_app. fold o. f_equal. destruct t; cbn; now rewrite app_nil_r.
Qed.

(** C125 (changesets): after a complete file, the replies of the second file follow
    those of the first, whatever the second one is. *)
Theorem C125_changesets : forall l b b' rs rs', SpecDump.text_of l b -> SpecDump.opened [] l = Some [] ->
  Replies (cs_step q_norm) (q_items b) rs -> Replies (cs_step q_norm) (q_items b') rs' ->
  Replies (cs_step q_norm) (q_items (b ++ b')) (rs ++ rs').
Proof.
  intros l b b' rs rs' T O R R'. eapply noq_replies; [|symmetry; exact (items_concat l b b' T O)]. apply replies_app; now apply replies_noq.
Qed.
Print Assumptions C125_changesets.

Lemma tag_noq norm l : forall cur t, next_tag norm cur t (noq l) = (let (r, s) := next_tag norm cur t l in (r, TR (tr_id s) (tr_tags s) (noq (tr_items s)))).
Proof.
  induction l as [|[[n a|n a|n|]|] l IH]; intros cur t; [reflexivity| | | | |reflexivity]; cbn [noq filter shown]; fold (noq l); cbn [next_tag];
    repeat match goal with |- context [if ?c then _ else _] => destruct c end; try apply IH.
  - destruct (take_id norm cur a) as [c [|]]; [apply IH|reflexivity].
  - destruct (read_tag norm a); [apply IH|reflexivity].
  - destruct (read_tag norm a); [apply IH|reflexivity].
  - destruct cur; reflexivity.
Qed.
Lemma tr_replies_noq norm s rs : Replies (tr_step norm) s rs -> forall s', noq (tr_items s') = noq (tr_items s) -> tr_id s' = tr_id s -> tr_tags s' = tr_tags s ->
  Replies (tr_step norm) s' rs.
Proof.
  assert (K : forall s r s1, tr_step norm s r s1 -> forall s', noq (tr_items s') = noq (tr_items s) -> tr_id s' = tr_id s -> tr_tags s' = tr_tags s ->
    exists s1', tr_step norm s' r s1' /\ noq (tr_items s1') = noq (tr_items s1) /\ tr_id s1' = tr_id s1 /\ tr_tags s1' = tr_tags s1).
  { unfold tr_step, tr_next. intros s0 r s1 H s' E1 E2 E3. pose proof (tag_noq norm (tr_items s0) (tr_id s0) (tr_tags s0)) as A.
    pose proof (tag_noq norm (tr_items s') (tr_id s') (tr_tags s')) as B. rewrite H in A. rewrite E1, E2, E3, A in B. rewrite E2, E3.
    destruct (next_tag norm (tr_id s0) (tr_tags s0) (tr_items s')) as [r' s1']. injection B as -> B1 B2 B3. exists s1'. auto. }
  induction 1 as [s s1 H|s a s1 l0 H _ IH|s s1 l0 H _ IH]; intros s' E1 E2 E3; destruct (K _ _ _ H s' E1 E2 E3) as (s1' & H' & F1 & F2 & F3);
    [eapply Replies_end; exact H'|eapply Replies_item; [exact H'|now apply IH]|eapply Replies_error; [exact H'|now apply IH]].
Qed.

(** ... and for the tag reader, if both files are in order. *)
Theorem C125_tag_reader : forall ps ps' b b', Forall wf_part (ps ++ ps') ->
  SpecDump.text_of (SpecDumpText.events ps) b -> SpecDump.opened [] (SpecDumpText.events ps) = Some [] -> SpecDump.text_of (SpecDumpText.events ps') b' ->
  Forall (fun p => match p with Noise e => not_about "tag" e | _ => True end) (ps ++ ps') ->
  Forall (fun d => d <> None) (file_value q_norm (ps ++ ps')) ->
  forall ds ds', Replies (tr_step q_norm) (tr_new (q_items b)) ds -> Replies (tr_step q_norm) (tr_new (q_items b')) ds' ->
    Replies (tr_step q_norm) (tr_new (q_items (b ++ b'))) (ds ++ ds').
Proof.
  intros ps ps' b b' W T O T' N V ds ds' R R'.
  pose proof (C49_tag_reader_agrees q_norm (ps ++ ps') W N V) as A.
  apply Forall_app in W as [W W']. apply Forall_app in N as [N N']. unfold file_value in V. rewrite filter_map_app in V. apply Forall_app in V as [V V'].
  assert (D : forall s r s' r' s'', tr_step q_norm s r s' -> tr_step q_norm s r' s'' -> r = r' /\ s' = s'').
  { unfold tr_step. intros s r s' r' s'' H H'. rewrite H in H'. now injection H' as -> ->. }
  pose proof (Replies_det _ D _ _ R _ (PropsDump.C108_tag_reader ps b W T N V)) as ->.
  pose proof (Replies_det _ D _ _ R' _ (PropsDump.C108_tag_reader ps' b' W' T' N' V')) as ->.
  rewrite <- map_app. unfold full_values in *. rewrite <- filter_map_app.
  eapply tr_replies_noq; [exact A| |reflexivity|reflexivity]. cbn [tr_new tr_items]. rewrite (items_concat _ b b' T O), <- noq_app. f_equal.
  rewrite file_events. unfold SpecDumpText.events. rewrite flat_map_app, map_app. now rewrite (text_items _ _ T), (text_items _ _ T').
Qed.
Print Assumptions C125_tag_reader.

(** ** XML *)

Section Xml.
Import SpecXmlDoc XmlDoc XmlDocRead PropsDoc XmlRef SpecXmlRef XmlRound.

(** After a complete document a second root element is an error. *)
Lemma second_root aw e e' t t' : document aw e t -> document aw e' t' ->
  exists evs, xml_items aw (utf8 (t ++ t')) = map IEv evs ++ [IErr] /\ strip evs = elem_events e.
Proof.
  intros D D'. assert (V : valid_str (t ++ t')) by (apply Forall_app; split; apply legal_valid; [apply D|apply D']).
  unfold xml_items. rewrite utf8_decode_encode by exact V. clear V.
  destruct D as (L & p & u & q & -> & Hp & Hu & Hq). apply legal_xchars in L. apply xapp in L as [Xp L]. apply xapp in L as [Xu Xq].
  destruct D' as (L' & p' & u' & q' & -> & Hp' & Hu' & Hq'). apply legal_xchars in L'. apply xapp in L' as [Xp' L']. apply xapp in L' as [Xu' Xq'].
  unfold tstart. rewrite <- !app_assoc, run_app. destruct (run_outside aw p Hp Xp [] false [EOther []]) as (b1 & e1 & -> & E1).
  rewrite run_app. destruct (proj1 (run_doc aw) e u Hu Xu b1 [] false e1) as (e2 & -> & E2); [now right|].
  rewrite run_app. destruct (run_outside aw q Hq Xq [] true e2) as (b3 & e3 & -> & E3).
  rewrite run_app. destruct (run_outside aw p' Hp' Xp' b3 true e3) as (b4 & e4 & -> & E4).
  assert (H : exists c r, u' = 60 :: c :: r /\ name_start c = true /\ xml_char c = true).
  { assert (G : forall n l h, tag_head aw n l h -> exists c r, h = c :: r /\ name_start c = true /\ xml_char c = true).
    { intros n l h (a & w & -> & Hn & _). destruct n as [|c n]; [destruct Hn|]. apply xml_name_cases in Hn as (A & _ & B). exists c, (n ++ a ++ w). split; [reflexivity|]. split; [exact A|now inversion B]. }
    inversion Hu' as [n l h Hh|n l h es body w Hh _ _]; destruct (G _ _ _ Hh) as (c & r & -> & A & B); subst; [exists c, (r ++ lit "/>")|exists c, (r ++ lit ">" ++ body ++ lit "</" ++ n ++ w ++ lit ">")]; now split. }
  destruct H as (c & r & -> & Hn & Xn). cbn [app]. change (60 :: c :: r ++ q') with ([60; c] ++ (r ++ q')). rewrite run_app.
  assert (E : trun aw (P (MText b4) [] true e4) [60; c] = P MErr [] true (e4 ++ flush b4)).
  { pose proof (name_start_facts c Hn) as (_ & _ & F3 & F4 & F5). rewrite !run_cons. change (tstep aw (P (MText b4) [] true e4) 60) with (P MLt [] true (e4 ++ flush b4)).
    unfold tstep. rewrite Xn. cbn [negb p_mode p_stack p_rooted]. now rewrite F3, F4, F5, Hn. }
  rewrite E, PropsWrong.trun_err by reflexivity. exists (e4 ++ flush b4). split; [reflexivity|].
  rewrite strip_app, strip_flush, E4, E3, E2, E1. cbn. now rewrite app_nil_r.
Qed.

(** C125 (XML): the objects of the first file are returned; then the reader
    panics, and nothing of the second file is lost silently. *)
Theorem C125_xml : forall attr_ws e e' t t', document attr_ws e t -> unnested e -> Forall (fun o => o <> None) (denoted e) ->
  document attr_ws e' t' ->
  Runs xml_next (xml_items attr_ws (utf8 (t ++ t'))) (first_objects (denoted e)) Panic
  /\ Runs osc_next (xml_items attr_ws (utf8 (t ++ t'))) (first_objects (denoted e)) Panic.
Proof.
  intros aw e e' t t' D U F D'. destruct (second_root aw e e' t t' D D') as (evs & -> & E).
  assert (Hd : Forall SpecXmlRead.distinct_attrs (elem_events e)) by (destruct D as (_ & p & u & q & _ & _ & Hu & _); exact (proj1 (element_distinct aw) e u Hu)).
  pose proof (tree_splits e U Hd) as S. rewrite <- E in S. apply strip_splits in S as (els & post & -> & Hg & Hq & Hm).
  assert (exists os, denoted e = map Some os /\ first_objects (denoted e) = os) as (os & Eo & Ef).
  { clear -F. induction F as [|o l Ho _ (os & E1 & E2)]; [now exists []|]. destruct o as [o|]; [|easy]. exists (o :: os). cbn [map first_objects]. now rewrite E1, <- E1, E2. }
  rewrite Ef. assert (R : Runs xml_next (map IEv (flat_map element_events els ++ post) ++ [IErr]) os Panic).
  { rewrite map_app, <- app_assoc, <- (app_nil_r os). apply runs_elements; [exact Hg|congruence|]. apply runs_quiet; [exact Hq|]. now apply Runs_panic. }
  split; [exact R|]. now apply runs_osc.
Qed.
End Xml.
Print Assumptions C125_xml.


(** ** OPL *)

Section Opl.
Import SpecOplLine Opl PropsOplLine.
Variable C : Type.
Variables parse_lon parse_lat : str -> option C.
Notation yields := (line_yields C parse_lon parse_lat).

(** What the first [n] calls of next give, whatever each of them does. *)
Fixpoint opl_calls (n : nat) (b : bytes) : list (result (oobj C)) :=
  match n with
  | O => []
  | S n => let (r, b') := opl_next parse_lon parse_lat b in r :: opl_calls n b'
  end.

(** C126: the i-th call gives what the i-th line says, also after lines that are
    no objects and after panics; after the last line every call gives None. *)
Theorem C126_each_line : forall b ls rs n, lines b ls -> Forall2 yields ls rs ->
  opl_calls (length ls + n) b = rs ++ repeat (Ret None) n.
Proof.
  intros b ls rs n HL HF. revert b HL. induction HF as [|l r ls rs Hr _ IH]; intros b HL; destruct (take_line_lines b _ HL) as (T & U).
  - subst b. cbn [length plus app]. clear. induction n as [|n IH]; [reflexivity|]. cbn [opl_calls repeat]. cbn [opl_next take_line]. now rewrite IH.
  - destruct U as (N & E & HL'). cbn [length plus opl_calls]. unfold opl_next. rewrite T. destruct l as [|c l]; [congruence|].
    rewrite <- (yields_fun _ _ _ _ _ _ Hr (yields_next _ _ _ (c :: l))). cbn [app]. f_equal. now apply IH.
Qed.

Lemma lines_app b ls b' ls' : lines b ls -> (b = [] \/ exists c, b = c ++ [10]) -> lines b' ls' -> lines (b ++ b') (ls ++ ls').
Proof.
  intros H. revert b' ls'. induction H as [|l Hn Hi|l r ls Hi HL IH]; intros b' ls' E H'.
  - exact H'.
  - destruct E as [->|(c & ->)]; [easy|]. elim Hi. apply in_or_app. right. now left.
  - cbn [app]. rewrite <- !app_assoc. apply ln_line; [exact Hi|]. apply IH; [|exact H'].
    destruct r as [|x r] using rev_ind; [now left|]. right. destruct E as [E|(c & E)]; [destruct l; discriminate|].
    exists r. rewrite !app_assoc in E. apply app_inj_tail in E as [_ ->]. reflexivity.
Qed.

(** C125 (OPL): after a file whose lines are all objects and end with a line break
    come the objects of the second file. *)
Theorem C125_opl : forall b b' ls os, lines b ls -> Forall2 (fun l o => yields l (Ret (Some o))) ls os ->
  b = [] \/ (exists c, b = c ++ [10]) ->
  opl_objects parse_lon parse_lat b = Ret os
  /\ opl_objects parse_lon parse_lat (b ++ b') = (do os' <- opl_objects parse_lon parse_lat b'; Ret (os ++ os')).
Proof.
  intros b b' ls os HL HF HE. destruct (C66_lines b') as (ls' & HL' & _).
  pose proof (C66_exact C parse_lon parse_lat b ls HL) as [A _].
  pose proof (C66_exact C parse_lon parse_lat b' ls' HL') as [B B'].
  pose proof (C66_exact C parse_lon parse_lat (b ++ b') (ls ++ ls') (lines_app _ _ _ _ HL HE HL')) as [D D'].
  split.
  - apply A. exists ls, []. rewrite app_nil_r. auto.
  - destruct (opl_objects parse_lon parse_lat b') as [os'|] eqn:E.
    + cbn. apply D. destruct (proj1 (B os') eq_refl) as (g & rest & -> & G & R). exists (ls ++ g), rest. rewrite <- app_assoc. split; [reflexivity|].
      split; [now apply Forall2_app|exact R].
    + cbn. apply D'. destruct (proj1 B' eq_refl) as (g & l & rest & -> & G & R). exists (ls ++ g), l, rest. rewrite <- app_assoc. split; [reflexivity|].
      split; [|exact R]. apply Forall_app. split; [|exact G]. clear -HF. induction HF; constructor; [now exists y|assumption].
Qed.
End Opl.
Print Assumptions C125_opl.
Print Assumptions C126_each_line.

(** ** Examples *)

Example C125_ex_changesets : forall ds, Forall SpecDumpText.dumpable ds ->
  SpecDump.text_of (SpecDumpText.events (dump_parts ds)) (SpecDumpText.dump ds) /\ SpecDump.opened [] (SpecDumpText.events (dump_parts ds)) = Some [].
Proof. intros ds H. split; [now apply dump_text_of|apply whole_opened]. Qed.
Example C125_ex_read : let b := SpecDumpText.dump [PropsDump.ex_changeset] in
  match next_changeset q_norm 100 (q_items (b ++ b)) with
  | Done (Item c, s) => match next_changeset q_norm 100 s with Done (Item c', _) => c = c' /\ c = PropsDump.ex_changeset | _ => False end
  | _ => False
  end.
Proof. vm_compute. split; reflexivity. Qed.

Section ExXml.
Import SpecXmlDoc XmlDoc XmlDocRead PropsDoc XmlDocInv.
Definition ex_osm : str := lit "<osm><node id='7' lat='1' lon='2'/></osm> ".
Definition ex_osm_tree : elem :=
  El (lit "osm") [] [El (lit "node") [(lit "id", lit "7"); (lit "lat", lit "1"); (lit "lon", lit "2")] []].
Example C125_ex_xml : document (fun c => c) ex_osm_tree ex_osm /\ unnested ex_osm_tree /\ Forall (fun o => o <> None) (denoted ex_osm_tree)
  /\ length (first_objects (denoted ex_osm_tree)) = 1%nat.
Proof.
  split; [|split; [|split]].
  - assert (N : ~ In IErr (titems (trun (fun c => c) tstart ex_osm))) by (vm_compute; intuition discriminate).
    destruct (items_document (fun c => c) ex_osm N) as (e & D). destruct (document_items _ _ _ D) as (evs & E & S).
    replace ex_osm_tree with e; [exact D|]. apply tree_unique. rewrite <- S.
    assert (F : strip evs = strip (filter_map (fun i => match i with IEv e => Some e | IErr => None end) (titems (trun (fun c => c) tstart ex_osm)))).
    { rewrite E. replace (filter_map _ (map IEv (evs ++ [EOther []]))) with (evs ++ [EOther []]) by (generalize (evs ++ [EOther []]); intros l0; induction l0 as [|x l0 IH]; [reflexivity|]; cbn; now rewrite <- IH).
      rewrite strip_app. cbn. now rewrite app_nil_r. }
    rewrite F. vm_compute. reflexivity.
  - apply unnested_other; [intros X; apply object_name_iff in X; vm_compute in X; discriminate X|]. constructor; [|constructor].
    apply unnested_object; [now apply object_name_iff|constructor].
  - vm_compute. constructor; [discriminate|constructor].
  - vm_compute. reflexivity.
Qed.
End ExXml.

(** A line that is an object, a blank one, one that makes the reader panic, and another object. *)
Definition ex_line : str := lit "w17 v2 dV c5 t i9 ujo Tname=a Nn4".
Definition ex_crash : str := lit "r1 v dV c t i u Ta=b Mn1@x,n2".
Example C126_ex :
  map (fun r => match r with Ret (Some _) => 2 | Ret None => 1 | Panic => 0 end)
    (opl_calls Z parse_i64 parse_i64 6 (utf8 (ex_line ++ [10; 10] ++ ex_crash ++ [10] ++ ex_line))) = [2; 1; 0; 2; 1; 1].
Proof. vm_compute. reflexivity. Qed.
