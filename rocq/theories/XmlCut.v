(** Cut XML documents: which objects the parser has seen completely. *)
From Coq Require Import String ZArith List Bool Lia.
From Coq Require Import ZifyBool ZifyNat.
From Verif Require Import Base Ints Timestamp Obj Utf8 SpecXml XmlWriteFacts XmlToken XmlRead SpecXmlRead
  SpecIter XmlRound XmlReadBack XmlTrunc.
Import ListNotations.
Open Scope Z_scope.

(** ** Decoding a cut text *)

Lemma upto_fuel_ok t : valid_str t -> forall r fuel, (length (utf8 t ++ r) <= fuel)%nat ->
  exists f', (length r <= f')%nat /\ utf8_upto_fuel fuel (utf8 t ++ r) = t ++ utf8_upto_fuel f' r.
Proof.
  induction 1 as [|c t Hc _ IH]; intros r fuel Hf; [exists fuel; easy|].
  change (utf8 (c :: t)) with (utf8_char c ++ utf8 t) in *. rewrite <- app_assoc in *.
  pose proof (utf8_char_len c). rewrite app_length in Hf.
  destruct fuel as [|fuel]; [lia|]. cbn [utf8_upto_fuel].
  rewrite utf8_next_char by easy.
  destruct (IH r fuel) as (f' & H1 & H2); [lia|]. exists f'. rewrite H2. easy.
Qed.

Lemma upto_fuel_more r : forall f, (length r <= f)%nat -> utf8_upto_fuel f r = utf8_upto r.
Proof.
  unfold utf8_upto.
  assert (G : forall n r, (length r <= n)%nat -> forall f g, (length r <= f)%nat -> (length r <= g)%nat ->
    utf8_upto_fuel f r = utf8_upto_fuel g r).
  { induction n as [|n IH]; intros s Hn f g Hf Hg.
    - destruct s; [|cbn in Hn; lia]. destruct f, g; reflexivity.
    - destruct s as [|b s]; [destruct f, g; reflexivity|].
      destruct f as [|f]; [cbn in Hf; lia|]. destruct g as [|g]; [cbn in Hg; lia|]. cbn [utf8_upto_fuel].
      destruct (utf8_next (b :: s)) as [[c r']|] eqn:E; [|easy].
      apply utf8_next_inv in E as [_ E]. apply (f_equal (@length _)) in E. rewrite app_length in E.
      pose proof (utf8_char_len c). f_equal. apply IH; lia. }
  intros f Hf. apply (G (length r)); lia.
Qed.

Lemma upto_app t r : valid_str t -> utf8_upto (utf8 t ++ r) = t ++ utf8_upto r.
Proof.
  intros H. unfold utf8_upto at 1.
  destruct (upto_fuel_ok t H r (length (utf8 t ++ r)) (le_n _)) as (f' & Hf & ->).
  f_equal. now apply upto_fuel_more.
Qed.

Lemma upto_inv l : exists r, l = utf8 (utf8_upto l) ++ r /\ valid_str (utf8_upto l).
Proof.
  unfold utf8_upto. generalize (length l) as f. intros f. revert l.
  induction f as [|f IH]; intros l; cbn [utf8_upto_fuel]; [exists l; split; [easy|constructor]|].
  destruct (utf8_next l) as [[c r]|] eqn:E; [|exists l; split; [easy|constructor]].
  apply utf8_next_inv in E as [Hc ->]. destruct (IH r) as (r' & E & Hv).
  exists r'. split.
  - change (utf8 (c :: utf8_upto_fuel f r)) with (utf8_char c ++ utf8 (utf8_upto_fuel f r)).
    rewrite <- app_assoc. now f_equal.
  - now constructor.
Qed.

Lemma upto_decode l s : utf8_decode l = Some s -> utf8_upto l = s.
Proof.
  intros H. apply utf8_decode_inv in H as [Hv ->]. rewrite <- (app_nil_r (utf8 s)), upto_app by easy.
  cbn. apply app_nil_r.
Qed.

Lemma utf8_prefix s1 : forall s r, valid_str s -> valid_str s1 -> utf8 s = utf8 s1 ++ r ->
  exists s2, s = s1 ++ s2.
Proof.
  induction s1 as [|c s1 IH]; intros s r Hs H1 E; [now exists s|].
  inv H1. destruct s as [|d s].
  - exfalso. change (utf8 (c :: s1)) with (utf8_char c ++ utf8 s1) in E.
    pose proof (utf8_char_len c). apply (f_equal (@length _)) in E. rewrite !app_length in E. cbn in E. lia.
  - inv Hs. change (utf8 (c :: s1)) with (utf8_char c ++ utf8 s1) in E.
    change (utf8 (d :: s)) with (utf8_char d ++ utf8 s) in E.
    apply (f_equal utf8_next) in E. rewrite <- app_assoc, !utf8_next_char in E by easy.
    injection E as -> E. destruct (IH s r) as (s2 & ->); auto. now exists s2.
Qed.

(** The text decoded from the first [k] bytes of [d] is a prefix of [d], and
    holds every prefix of [d] that is not longer than [k] bytes. *)
Lemma upto_cut d k : valid_str d -> exists s2, d = utf8_upto (firstn k (utf8 d)) ++ s2.
Proof.
  intros Hd. destruct (upto_inv (firstn k (utf8 d))) as (r & E & Hv).
  apply (utf8_prefix _ _ (r ++ skipn k (utf8 d))); auto.
  rewrite app_assoc, <- E. symmetry. apply firstn_skipn.
Qed.

Lemma upto_holds d k t t2 : valid_str d -> d = t ++ t2 ->
  ((length (utf8 t) <= k)%nat <-> exists u, utf8_upto (firstn k (utf8 d)) = t ++ u).
Proof.
  intros Hd ->. apply Forall_app in Hd as [Ht Ht2]. split.
  - intros Hk. rewrite utf8_app, firstn_app, (firstn_all2 (utf8 t)) by easy.
    rewrite upto_app by easy. eauto.
  - intros (u & E). destruct (upto_inv (firstn k (utf8 (t ++ t2)))) as (r & E2 & _).
    rewrite E in E2. apply (f_equal (@length _)) in E2. rewrite firstn_length in E2.
    rewrite (utf8_app t u), !app_length in E2. lia.
Qed.

Lemma Forall_first {A} (P : A -> Prop) n l : Forall P l -> Forall P (firstn n l).
Proof. intros H. rewrite <- (firstn_skipn n l) in H. now apply Forall_app in H. Qed.

(** ** Running over a part of a document *)

Section Cut.
Variable attr_ws : char -> char.
Hypothesis Hws : normalises attr_ws.
Notation run := (trun attr_ws).

Definition no_end (e : event) : Prop := ends_obj e = false.

Lemma next_cut l : Forall no_end l -> xml_next (map IEv l ++ [IErr]) = Panic.
Proof.
  intros H. unfold xml_next.
  enough (G : forall push acc, xml_pull push acc (map IEv l ++ [IErr]) = Panic) by now rewrite G.
  induction H as [|e l He _ IH]; intros push acc; [reflexivity|].
  cbn [map app xml_pull]. change (match e with EEnd n => obj_name n | _ => false end) with (ends_obj e).
  rewrite He. apply IH.
Qed.

Lemma quiet_no_end l : Forall quiet l -> Forall no_end l.
Proof. apply Forall_impl. now intros e [_ H]. Qed.

Lemma run_prefix_evs p s1 s2 ev l : p_evs p = ev -> p_evs (run p (s1 ++ s2)) = ev ++ l -> Forall no_end l ->
  exists l1, p_evs (run p s1) = ev ++ l1 /\ Forall no_end l1.
Proof.
  intros Hp H Hl. destruct (run_evs attr_ws s1 p) as (l1 & E1). exists l1. rewrite Hp in E1.
  split; [exact E1|]. rewrite run_app in H. destruct (run_evs attr_ws s2 (run p s1)) as (l2 & E2).
  rewrite E2, E1, <- app_assoc in H. apply app_inv_head in H. subst l. now apply Forall_app in Hl.
Qed.

(** The text of an object without its last character does not end the element. *)
Lemma run_obj_open o s st ev : xml_object attr_ws o ->
  exists l, p_evs (run (P (MText []) (s :: st) true ev) (removelast (obj_text o))) = ev ++ l /\ Forall no_end l.
Proof.
  intros (Hr & _ & _ & Hc & Ht). unfold obj_text.
  rewrite (obj_attrs_esc attr_ws) by easy.
  destruct (run_head attr_ws (s :: st) true ev [10; 9] (name_long (s_type o)) (obj_attrs raw o))
    as (m & Hm & E).
  { repeat constructor. }
  { apply name_long_name. }
  { left. discriminate. }
  { apply obj_attrs_names. }
  { now apply obj_attrs_carried. }
  set (rest := if short_form o then _ else _).
  replace ([10; 9] ++ lit "<" ++ name_long (s_type o) ++ attrs_text (esc_values (obj_attrs raw o)) ++ rest)
    with (([10; 9] ++ lit "<" ++ name_long (s_type o) ++ attrs_text (esc_values (obj_attrs raw o))) ++ rest)
    by (now rewrite <- !app_assoc).
  assert (Hne : rest <> []).
  { unfold rest. destruct (short_form o); discriminate. }
  rewrite removelast_app by exact Hne. rewrite run_app, E. unfold rest. destruct (short_form o).
  - exists [EOther [10; 9]]. split; [|repeat constructor].
    change (removelast (lit " />")) with (lit " /").
    destruct Hm as [[_ ->] | ->]; reflexivity.
  - exists ([EOther [10; 9]; EStart (name_long (s_type o)) (obj_attrs raw o)] ++ body_events o ++ [EOther [10; 9]]).
    split.
    + replace (lit ">" ++ children_text o ++ [10; 9] ++ lit "</" ++ name_long (s_type o) ++ lit ">")
        with ((lit ">" ++ children_text o ++ [10; 9] ++ lit "</" ++ name_long (s_type o)) ++ [62])
        by (rewrite <- !app_assoc; reflexivity).
      rewrite removelast_last.
      rewrite run_app, (run_gt attr_ws _ _ _ _ _ _ Hm). rewrite run_app, run_body by easy.
      rewrite run_app, run_ws by (repeat constructor). cbn [app].
      rewrite run_app.
      match goal with |- context [run (P (MText [10; 9]) ?stk ?r ?e) (lit "</")] =>
        change (run (P (MText [10; 9]) stk r e) (lit "</")) with (P MCloseStart stk r (e ++ [EOther [10; 9]])) end.
      match goal with |- context [P MCloseStart _ true (?x ++ [EOther [10; 9]])] => set (e := x) end.
      assert (Hnm : xml_name (name_long (s_type o))) by apply name_long_name.
      destruct (name_long (s_type o)) as [|c n]; [easy|].
      apply xml_name_cases in Hnm as (Hs & Hcs & Hx). inv Hx. rewrite run_cons.
      assert (E2 : tstep attr_ws (P MCloseStart ((c :: n) :: s :: st) true (e ++ [EOther [10; 9]])) c
        = P (MCloseName [c]) ((c :: n) :: s :: st) true (e ++ [EOther [10; 9]])).
      { unfold tstep. rewrite H1. cbn [negb p_mode p_stack]. rewrite Hs. reflexivity. }
      rewrite E2, run_close_name by easy. cbn [p_evs]. unfold e. rewrite <- !app_assoc. reflexivity.
    + apply Forall_app. split; [repeat constructor|]. apply Forall_app. split; [|repeat constructor].
      unfold body_events. repeat (apply Forall_app; split); now apply child_no_end.
Qed.

Lemma obj_text_len o : (0 < length (obj_text o))%nat.
Proof. unfold obj_text. rewrite app_length. cbn. lia. Qed.

(** Running over a prefix [t] of objects and closing: the events are those of the
    objects whose text is complete, and then no end of an object. *)
Lemma run_cut closing s st os : Forall (xml_object attr_ws) os ->
  (forall ev, exists l, p_evs (run (P (MText []) (s :: st) true ev) closing) = ev ++ l /\ Forall no_end l) ->
  forall ev t t2, flat_map obj_text os ++ closing = t ++ t2 ->
  exists j l, (j <= length os)%nat
    /\ p_evs (run (P (MText []) (s :: st) true ev) t) = ev ++ objs_events (firstn j os) ++ l /\ Forall no_end l
    /\ forall i, (i <= length os)%nat -> (exists u, t = flat_map obj_text (firstn i os) ++ u) <-> (i <= j)%nat.
Proof.
  intros Ho Hc. induction Ho as [|o os Ho Hos IH]; intros ev t t2 E.
  - cbn [flat_map app] in E. destruct (Hc ev) as (l & H1 & H2). rewrite E in H1.
    destruct (run_prefix_evs (P (MText []) (s :: st) true ev) t t2 ev l eq_refl H1 H2) as (l1 & H3 & H4).
    exists O, l1. split; [easy|]. split; [exact H3|]. split; [exact H4|].
    intros i Hi. cbn in Hi. replace i with O by lia. split; [easy|]. intros _. now exists t.
  - cbn [flat_map] in E. rewrite <- app_assoc in E.
    apply app_eq_app in E as (u & [[E1 E2]|[E1 E2]]).
    + destruct u as [|c u].
      * rewrite app_nil_r in E1. subst t.
        destruct Ho as (H1 & H2 & H3 & H4 & H5).
        destruct (IH (ev ++ EOther [10; 9] :: obj_events o) [] (flat_map obj_text os ++ closing) eq_refl)
          as (j & l & J1 & J2 & J3 & J4).
        exists (S j), l. split; [cbn; lia|]. split.
        { rewrite run_obj by easy. cbn [trun fold_left p_evs] in J2 |- *. rewrite J2.
          cbn [firstn objs_events flat_map]. rewrite <- !app_assoc. reflexivity. }
        split; [exact J3|]. intros [|i] Hi; [split; [lia|]; intros _; now exists (obj_text o)|].
        cbn [firstn flat_map length] in *. specialize (J4 i ltac:(lia)). split.
        -- intros (u & Hu). enough (i <= j)%nat by lia. apply J4.
           exists u. rewrite <- app_assoc in Hu. rewrite <- (app_nil_r (obj_text o)) in Hu at 1.
           now apply app_inv_head in Hu.
        -- intros Hj. destruct J4 as [_ J4]. destruct (J4 ltac:(lia)) as (u & Hu).
           exists u. rewrite <- app_assoc, <- Hu. now rewrite app_nil_r.
      * destruct (run_obj_open o s st ev Ho) as (l & H1 & H2). rewrite E1 in H1.
        rewrite removelast_app in H1 by discriminate.
        destruct (run_prefix_evs (P (MText []) (s :: st) true ev) t _ ev l eq_refl H1 H2) as (l1 & H3 & H4).
        exists O, l1. split; [lia|]. split; [exact H3|]. split; [exact H4|].
        intros [|i] Hi; [split; [easy|]; intros _; now exists t|].
        split; [|lia]. intros (v & Hv). exfalso. cbn [firstn flat_map] in Hv. rewrite E1 in Hv.
        apply (f_equal (@length _)) in Hv. rewrite !app_length in Hv. cbn in Hv. lia.
    + subst t. destruct Ho as (H1 & H2 & H3 & H4 & H5).
      destruct (IH (ev ++ EOther [10; 9] :: obj_events o) u t2 E2) as (j & l & J1 & J2 & J3 & J4).
      exists (S j), l. split; [cbn; lia|]. split.
      { rewrite run_app, run_obj by easy. rewrite J2.
        cbn [firstn objs_events flat_map]. rewrite <- !app_assoc. reflexivity. }
      split; [exact J3|]. intros [|i] Hi; [split; [lia|]; intros _; eexists; reflexivity|].
      cbn [firstn flat_map length] in *. specialize (J4 i ltac:(lia)). split.
      * intros (v & Hv). enough (i <= j)%nat by lia. apply J4.
        exists v. rewrite <- app_assoc in Hv. now apply app_inv_head in Hv.
      * intros Hj. destruct J4 as [_ J4]. destruct (J4 ltac:(lia)) as (v & Hv).
        exists v. now rewrite <- app_assoc, <- Hv.
Qed.

(** Reading the first [k] bytes of a document and then hitting a failure. *)
Lemma cut_runs opening closing pre s st os :
  run tstart opening = P (MText []) (s :: st) true pre -> Forall quiet pre ->
  (forall ev, exists l, p_evs (run (P (MText []) (s :: st) true ev) closing) = ev ++ l /\ Forall no_end l) ->
  Forall (xml_object attr_ws) os -> valid_str (opening ++ flat_map obj_text os ++ closing) ->
  forall k, exists j, (j <= length os)%nat
    /\ (forall i, (i <= length os)%nat ->
         (i <= j)%nat <-> i = O \/ (length (utf8 (opening ++ flat_map obj_text (firstn i os))) <= k)%nat)
    /\ Runs xml_next (cut_items attr_ws (firstn k (utf8 (opening ++ flat_map obj_text os ++ closing))))
         (map as_read (firstn j os)) Panic.
Proof.
  intros Hop Hq Hc Ho Hv k. set (d := opening ++ flat_map obj_text os ++ closing) in *.
  destruct (upto_cut d k Hv) as (s2 & Es).
  assert (Hh : forall i, (length (utf8 (opening ++ flat_map obj_text (firstn i os))) <= k)%nat
    <-> exists u, utf8_upto (firstn k (utf8 d)) = (opening ++ flat_map obj_text (firstn i os)) ++ u).
  { intros i. apply (upto_holds d k _ (flat_map obj_text (skipn i os) ++ closing) Hv).
    unfold d. rewrite <- app_assoc. f_equal. rewrite app_assoc, <- flat_map_app, firstn_skipn. easy. }
  unfold cut_items. set (t := utf8_upto (firstn k (utf8 d))) in *.
  unfold d in Es. apply app_eq_app in Es as (u & [[E1 E2]|[E1 E2]]).
  - assert (B : u = [] \/ u <> []) by (destruct u; [now left|now right]).
    destruct B as [->|Hu].
    + rewrite app_nil_r in E1.
      destruct (run_cut closing s st os Ho Hc pre [] (flat_map obj_text os ++ closing) eq_refl)
        as (j & l & J1 & J2 & J3 & J4).
      exists j. split; [exact J1|]. split.
      * intros i Hi. rewrite <- J4 by exact Hi. rewrite Hh, <- E1. split.
        -- intros (v & Hv'). right. exists v. rewrite <- app_assoc, <- Hv'. now rewrite app_nil_r.
        -- intros [-> | (v & Hv')]; [now exists []|]. exists v. rewrite <- app_assoc in Hv'.
           rewrite <- (app_nil_r opening) in Hv' at 1. now apply app_inv_head in Hv'.
      * rewrite <- E1, Hop. cbn [trun fold_left p_evs] in J2 |- *. rewrite J2.
        rewrite app_assoc, map_app, <- app_assoc. rewrite <- (app_nil_r (map as_read _)).
        destruct (xml_object_range attr_ws os Ho) as [Hr Hp].
        apply runs_objs; auto using Forall_first.
        intros pre' Hp'. apply Runs_panic. rewrite app_assoc, <- map_app. apply next_cut.
        apply Forall_app. split; [now apply quiet_no_end|exact J3].
    + exists O. split; [lia|]. split.
      * intros i Hi. rewrite Hh. split; [left; lia|]. intros [-> | (v & Hv')]; [lia|]. exfalso.
        rewrite E1 in Hv'. apply (f_equal (@length _)) in Hv'. rewrite !app_length in Hv'.
        destruct u; [easy|cbn in Hv'; lia].
      * apply Runs_panic. apply next_cut.
        rewrite E1, run_app in Hop. destruct (run_evs attr_ws u (run tstart t)) as (l & El).
        rewrite Hop in El. cbn [p_evs] in El. apply quiet_no_end in Hq. rewrite El in Hq.
        now apply Forall_app in Hq.
  - destruct (run_cut closing s st os Ho Hc pre u s2 E2) as (j & l & J1 & J2 & J3 & J4).
    exists j. split; [exact J1|]. split.
    + intros i Hi. rewrite <- J4 by exact Hi. rewrite Hh, E1. split.
      * intros (v & Hv'). right. exists v. rewrite <- app_assoc, <- Hv'. easy.
      * intros [-> | (v & Hv')]; [now exists u|]. exists v. rewrite <- app_assoc in Hv'.
        now apply app_inv_head in Hv'.
    + rewrite E1, run_app, Hop, J2.
      rewrite app_assoc, map_app, <- app_assoc. rewrite <- (app_nil_r (map as_read _)).
      destruct (xml_object_range attr_ws os Ho) as [Hr Hp].
      apply runs_objs; auto using Forall_first.
      intros pre' Hp'. apply Runs_panic. rewrite app_assoc, <- map_app. apply next_cut.
      apply Forall_app. split; [now apply quiet_no_end|exact J3].
Qed.

(** A document that ends early is read like a source that fails at that place. *)
Lemma xml_items_cut d p : valid_str d -> run tstart (removelast d) = p -> p_mode p <> MErr -> p_stack p <> [] ->
  forall k, (k < length (utf8 d))%nat ->
  xml_items attr_ws (firstn k (utf8 d)) = cut_items attr_ws (firstn k (utf8 d)).
Proof.
  intros Hv Hr Hm Hs k Hk. unfold xml_items.
  destruct (utf8_decode (firstn k (utf8 d))) as [s1|] eqn:Ed; [|easy].
  unfold cut_items. rewrite (upto_decode _ _ Ed).
  apply utf8_decode_inv in Ed as [Hv1 Ed].
  assert (E : utf8 d = utf8 s1 ++ skipn k (utf8 d)) by (rewrite <- Ed; symmetry; apply firstn_skipn).
  destruct (utf8_prefix s1 _ _ Hv Hv1 E) as (s2 & Es).
  assert (Hs2 : s2 <> []).
  { intros ->. rewrite app_nil_r in Es. rewrite Es in *. apply (f_equal (@length _)) in Ed.
    rewrite firstn_length in Ed. lia. }
  rewrite Es, removelast_app in Hr by easy.
  apply (prefix_incomplete attr_ws (s1 ++ removelast s2) s1 (removelast s2) eq_refl); now rewrite Hr.
Qed.

End Cut.
