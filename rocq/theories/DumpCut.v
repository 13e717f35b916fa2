(** Reading the beginning of an XML text. *)
From Coq Require Import String ZArith List Bool Lia.
From Coq Require Import ZifyBool ZifyNat.
From Verif Require Import Base Ints Utf8 XmlToken Changesets QuickXml SpecDump DumpFacts.
Import ListNotations.
Open Scope Z_scope.

(** ** The items only grow, and something that has begun counts as one *)

Definition pending (m : qmode) : nat :=
  match m with QText false | QDone => 0%nat | _ => 1%nat end.
Definition weight (p : qst) : nat := (length (q_out p) + pending (q_mode p))%nat.

Ltac step_tac p b :=
  destruct p as [m st out]; unfold q_step, q_tag, q_open, q_end, q_go; cbn [q_mode q_stack q_out];
  repeat match goal with
  | |- context [match ?x with _ => _ end] => destruct x
  | |- context [let '(_, _) := ?x in _] => destruct x
  end.

Lemma step_out p b : exists l, q_out (q_step p b) = q_out p ++ l.
Proof.
  step_tac p b; cbn [q_out]; first [eexists; reflexivity|exists []; now rewrite app_nil_r].
Qed.
Lemma run_out l : forall p, exists l', q_out (q_run p l) = q_out p ++ l'.
Proof.
  induction l as [|b l IH]; intros p; [exists []; now rewrite app_nil_r|].
  rewrite q_run_cons. destruct (IH (q_step p b)) as [x Hx], (step_out p b) as [y Hy].
  exists (y ++ x). now rewrite Hx, Hy, app_assoc.
Qed.

Lemma step_weight p b : (weight p <= weight (q_step p b))%nat.
Proof.
  step_tac p b; unfold weight; cbn [q_out q_mode pending]; rewrite ?app_length; cbn [length];
  repeat match goal with s : bool |- _ => destruct s end; cbn [length q_flush pending]; lia.
Qed.
Lemma run_weight l : forall p, (weight p <= weight (q_run p l))%nat.
Proof.
  induction l as [|b l IH]; intros p; [reflexivity|].
  rewrite q_run_cons. pose proof (step_weight p b). pose proof (IH (q_step p b)). lia.
Qed.

Lemma step_fresh st out b : (length out < weight (q_step (Q (QText false) st out) b))%nat.
Proof.
  unfold q_step, q_go. cbn [q_mode q_stack q_out].
  destruct (b =? 60); [|destruct (b =? 38)]; unfold weight; cbn [q_out q_mode pending q_flush]; rewrite app_length; cbn [length]; lia.
Qed.

Lemma run_some l : forall st out,
  q_run (Q (QText true) st out) l = Q (QText true) st out \/ (S (length out) < weight (q_run (Q (QText true) st out) l))%nat.
Proof.
  induction l as [|b l IH]; intros st out; [now left|]. rewrite q_run_cons.
  pose proof (run_weight l (q_step (Q (QText true) st out) b)) as Hw.
  unfold q_step, q_go in *. cbn [q_mode q_stack q_out q_flush] in *.
  destruct (b =? 60); [|destruct (b =? 38)];
    [right; unfold weight at 1 in Hw; cbn [q_out q_mode pending] in Hw; rewrite app_length in Hw; cbn [length] in Hw; lia..|].
  rewrite app_nil_r. apply IH.
Qed.

Lemma run_done l : forall st out, q_run (Q QDone st out) l = Q QDone st out.
Proof. induction l as [|b l IH]; intros st out; [reflexivity|]. rewrite q_run_cons. apply IH. Qed.

(** ** Inside a markup *)

Definition inside (m : qmode) : Prop := match m with QText _ | QDone => False | _ => True end.

Lemma markup_first e m : markup e m -> exists c r, m = c :: r /\ (c = 60 \/ c = 38).
Proof. destruct 1; cbn; eexists _, _; split; try reflexivity; auto. Qed.

Lemma markup_cut e m r1 r2 s st st' out : markup e m -> opened st [e] = Some st' ->
  m = r1 ++ r2 -> r1 <> [] -> r2 <> [] ->
  exists md st'', q_run (Q (QText s) st out) r1 = Q md st'' (out ++ q_flush s) /\ inside md.
Proof.
  intros Hm Ho E H1 H2. destruct r2 as [|c2 r2]; [easy|].
  pose proof (run_markup e m Hm s st st' out Ho) as HR. rewrite E, q_run_app in HR.
  destruct (markup_first e m Hm) as (c & r & Ec & Hc). destruct r1 as [|c1 r1]; [easy|].
  rewrite Ec in E. injection E as <- ->. rewrite (q_run_cons _ c r1) in HR |- *.
  assert (Hs : exists md, q_step (Q (QText s) st out) c = Q md st (out ++ q_flush s) /\ inside md).
  { unfold q_step, q_go. cbn [q_mode q_stack q_out]. destruct Hc as [-> | ->]; cbn; eexists; split; try reflexivity; exact I. }
  destruct Hs as (md & Es & Hi). rewrite Es in *.
  pose proof (run_weight r1 (Q md st (out ++ q_flush s))) as W1.
  destruct (run_out r1 (Q md st (out ++ q_flush s))) as [x Hx]. cbn [q_out] in Hx.
  destruct (q_run (Q md st (out ++ q_flush s)) r1) as [md1 st1 out1]. cbn [q_out] in Hx.
  pose proof (run_weight (c2 :: r2) (Q md1 st1 out1)) as W2.
  assert (B : weight (q_run (Q md1 st1 out1) (c2 :: r2)) = (S (length (out ++ q_flush s)))%nat).
  { rewrite HR. unfold weight. cbn [q_out q_mode pending]. rewrite !app_length. cbn. lia. }
  rewrite B in W2.
  assert (W0 : weight (Q md st (out ++ q_flush s)) = S (length (out ++ q_flush s))).
  { unfold weight. cbn [q_out q_mode]. destruct md; try destruct some; cbn in *; try contradiction; lia. }
  rewrite W0 in W1.
  assert (Hin : inside md1).
  { destruct md1 as [[|] | | | | | | | |]; try exact I.
    - destruct (run_some (c2 :: r2) st1 out1) as [E|E].
      + rewrite E in HR. discriminate.
      + rewrite B in E. unfold weight in W1. cbn in W1. lia.
    - rewrite q_run_cons in B. pose proof (step_fresh st1 out1 c2) as F.
      pose proof (run_weight r2 (q_step (Q (QText false) st1 out1) c2)) as W3.
      rewrite B in W3. unfold weight in W1. cbn in W1. lia.
    - rewrite run_done in HR. discriminate. }
  exists md1, st1. split; [|exact Hin]. f_equal. subst out1.
  assert (length x = 0)%nat.
  { unfold weight in W1, W2. cbn [q_out q_mode] in W1, W2. rewrite app_length in W1, W2.
    destruct md1; try destruct some; cbn in *; try contradiction; lia. }
  destruct x; [now rewrite app_nil_r|discriminate].
Qed.

(** ** Beginnings of texts *)

(** What is known of the items of a beginning: cut in character data, or inside
    a markup. *)
Lemma text_cut xs st : Forall good_piece xs -> opened [] (flat_map piece_events xs) = Some st ->
  forall t, plain_text t ->
  q_items (flat_map piece_bytes xs ++ t) = map QEv (flat_map piece_events xs ++ text_event t)
  /\ q_items_io (flat_map piece_bytes xs ++ t) = map QEv (flat_map piece_events xs) ++ [QErr].
Proof.
  intros Hx Ho t Ht. split.
  - apply text_items. exists xs, t. repeat (split; [assumption || reflexivity|]).
    rewrite opened_app, Ho. now destruct t.
  - unfold q_items_io, q_start. now rewrite q_run_app, (run_pieces xs Hx _ _ _ Ho), run_text by exact Ht.
Qed.

Lemma markup_beginning xs e m r1 r2 st : Forall good_piece xs -> markup e m ->
  forall t, plain_text t ->
  opened [] (flat_map piece_events xs ++ text_event t ++ [e]) = Some st ->
  m = r1 ++ r2 -> r1 <> [] -> r2 <> [] ->
  q_items (flat_map piece_bytes xs ++ t ++ r1) = map QEv (flat_map piece_events xs ++ text_event t) ++ [QErr]
  /\ q_items_io (flat_map piece_bytes xs ++ t ++ r1) = map QEv (flat_map piece_events xs ++ text_event t) ++ [QErr].
Proof.
  intros Hx Hm t Ht Ho E H1 H2. rewrite opened_app in Ho.
  destruct (opened [] (flat_map piece_events xs)) as [st0|] eqn:E0; [|discriminate].
  rewrite opened_text in Ho.
  unfold q_items, q_items_io, q_start. rewrite !q_run_app, (run_pieces xs Hx _ _ _ E0), run_text by exact Ht.
  destruct (markup_cut e m r1 r2 (match t with [] => false | _ => true end) st0 st
              ([] ++ map QEv (flat_map piece_events xs)) Hm Ho E H1 H2) as (md & st'' & -> & Hi).
  cbn [q_out q_mode app]. rewrite map_app.
  replace (map QEv (text_event t)) with (q_flush (match t with [] => false | _ => true end)) by (now destruct t).
  destruct md as [some| | | | | | | |]; try contradiction; split; reflexivity.
Qed.
