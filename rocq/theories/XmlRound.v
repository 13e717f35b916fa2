(** Tokenizing and reading what the writers wrote. *)
From Coq Require Import String ZArith List Bool Lia Permutation.
From Coq Require Import ZifyBool ZifyNat.
From Verif Require Import Base SpecNum Ints SpecCal Timestamp TimestampFacts Obj Coord CoordFacts Utf8
  SpecXml XmlToken XmlRead SpecXmlRead XmlReadFacts.
Import ListNotations.
Open Scope Z_scope.

(** ** Characters of numbers, coordinates and timestamps *)

(** Printable ASCII other than markup. *)
Definition tame (c : char) : Prop := 32 <= c <= 126 /\ c <> 38 /\ c <> 60 /\ c <> 62 /\ c <> 34 /\ c <> 39.

Lemma digit_tame c : is_digit c -> tame c.
Proof. unfold is_digit, tame. lia. Qed.

Lemma show_int_tame n : Forall tame (show_int n).
Proof.
  eapply Forall_impl; [|apply show_int_chars]. intros c [H | ->]; [now apply digit_tame|].
  unfold tame. lia.
Qed.

Lemma show_uint_tame n : 0 <= n -> Forall tame (show_uint n).
Proof. intros H. eapply Forall_impl; [|now apply show_uint_chars]. apply digit_tame. Qed.

Lemma strip10_nonneg f : forall c e, 0 <= c -> 0 <= fst (strip10 f c e).
Proof.
  induction f as [|f IH]; intros c e H; cbn; [easy|].
  destruct (c mod 10 =? 0); [|easy]. apply IH. apply Z.div_pos; lia.
Qed.

Lemma Forall_firstn' {A} (P : A -> Prop) n l : Forall P l -> Forall P (firstn n l).
Proof.
  revert n. induction l; intros [|n] H; cbn; try constructor; inv H; auto.
Qed.
Lemma Forall_skipn' {A} (P : A -> Prop) n l : Forall P l -> Forall P (skipn n l).
Proof.
  revert n. induction l; intros [|n] H; cbn; try constructor; inv H; auto.
Qed.
Lemma Forall_repeat' {A} (P : A -> Prop) n x : P x -> Forall P (repeat x n).
Proof. intros H. induction n; cbn; constructor; auto. Qed.

Lemma positional_tame c e : 0 <= c -> Forall tame (positional c e).
Proof.
  intros H. unfold positional.
  assert (Hd := show_uint_tame c H).
  assert (H48 : tame 48) by (unfold tame; lia). assert (H46 : tame 46) by (unfold tame; lia).
  destruct (0 <=? e).
  - apply Forall_app. split; [easy|]. now apply Forall_repeat'.
  - destruct (Nat.leb _ _); repeat (apply Forall_app; split); auto using Forall_repeat',
      Forall_firstn', Forall_skipn'; repeat constructor; unfold tame; cbn; lia.
Qed.

Lemma show_coord_tame i : Forall tame (show_coord i).
Proof.
  unfold show_coord. destruct (i =? 0); [repeat constructor; cbn; lia|].
  pose proof (strip10_nonneg 10 (Z.abs i) (-7) ltac:(lia)) as H.
  destruct (strip10 10 (Z.abs i) (-7)) as [c e]. cbn in H.
  apply Forall_app. split; [destruct (i <? 0); repeat constructor; cbn; lia|].
  now apply positional_tame.
Qed.

Lemma two_tame n : 0 <= n <= 99 -> Forall tame (two n).
Proof.
  intros H. unfold two. repeat constructor; unfold tame; Z.div_mod_to_equations; lia.
Qed.

Lemma four_tame n : 0 <= n <= 9999 -> Forall tame (four n).
Proof.
  intros H. unfold four. apply Forall_app. split; apply two_tame; Z.div_mod_to_equations; lia.
Qed.

Lemma epoch_iso_tame t : Forall tame (to_iso_string (EpochNumber t)).
Proof.
  cbn [to_iso_string]. destruct (epoch_to_iso_canonical (as_i32 t) (as_i32_range t))
    as (n & x & h & mi & s & _ & [Hm Hd] & Hy & Hh & Hmi & Hs & -> & _).
  assert (d_day x <= 31).
  { unfold days_in_month in Hd. destruct (d_month x =? 2), (leap (d_year x)),
      ((d_month x =? 4) || (d_month x =? 6) || (d_month x =? 9) || (d_month x =? 11)); lia. }
  unfold iso_text. repeat (apply Forall_app; split); try apply four_tame; try apply two_tame; try lia;
    repeat constructor; unfold tame; cbn; lia.
Qed.

Lemma name_long_tame t : Forall tame (name_long t).
Proof. destruct t; repeat constructor; unfold tame; cbn; lia. Qed.

Lemma tame_unmarked s : Forall tame s -> unmarked s.
Proof. apply Forall_impl. unfold tame. lia. Qed.

Lemma unmarked_esc s : unmarked s -> esc s = s.
Proof.
  induction 1 as [|c s H _ IH]; [easy|]. unfold esc in *. cbn [flat_map]. rewrite IH.
  unfold esc_char. change (chr "&") with 38. change (chr "'") with 39.
  change (chr "<") with 60. change (chr ">") with 62.
  replace (c =? 38) with false by lia. replace (c =? 34) with false by lia.
  replace (c =? 39) with false by lia. replace (c =? 60) with false by lia.
  replace (c =? 62) with false by lia. reflexivity.
Qed.

Section Tokenize.
Variable attr_ws : char -> char.
Hypothesis Hws : normalises attr_ws.

Notation run := (trun attr_ws).

Lemma tame_carried s : Forall tame s -> carried attr_ws s.
Proof.
  apply Forall_impl. unfold tame, xml_char. intros c H. split; [lia|]. apply Hws; lia.
Qed.

Lemma run_app p a b : run p (a ++ b) = run (run p a) b.
Proof. apply fold_left_app. Qed.

Lemma run_cons p c s : run p (c :: s) = run (tstep attr_ws p c) s.
Proof. reflexivity. Qed.

(** ** Attribute values *)

Lemma run_value n l a st r ev s : carried attr_ws s -> forall v,
  run (P (MVal n l a 34 v) st r ev) (esc s) = P (MVal n l a 34 (v ++ s)) st r ev.
Proof.
  induction 1 as [|c s [Hx Hc] _ IH]; intros v; cbn [esc flat_map].
  - now rewrite app_nil_r.
  - rewrite run_app.
    assert (E : run (P (MVal n l a 34 v) st r ev) (esc_char c) = P (MVal n l a 34 (v ++ [c])) st r ev).
    { unfold esc_char. change (chr "&") with 38. change (chr "'") with 39.
      change (chr "<") with 60. change (chr ">") with 62.
      destruct (c =? 38) eqn:E1; [apply Z.eqb_eq in E1 as ->; reflexivity|].
      destruct (c =? 34) eqn:E2; [apply Z.eqb_eq in E2 as ->; reflexivity|].
      destruct (c =? 39) eqn:E3; [apply Z.eqb_eq in E3 as ->; reflexivity|].
      destruct (c =? 60) eqn:E4; [apply Z.eqb_eq in E4 as ->; reflexivity|].
      destruct (c =? 62) eqn:E5; [apply Z.eqb_eq in E5 as ->; reflexivity|].
      cbn [trun fold_left]. unfold tstep. rewrite Hx. cbn [negb p_mode].
      rewrite E2, E1, E4. unfold goto. cbn [p_stack p_rooted p_evs]. now rewrite Hc. }
    rewrite E. change (flat_map esc_char s) with (esc s). rewrite IH. now rewrite <- app_assoc.
Qed.

(** ** Names *)

Lemma run_open_name st r ev s : Forall (fun c => name_char c = true) s ->
  Forall (fun c => xml_char c = true) s -> forall n,
  run (P (MOpenName n) st r ev) s = P (MOpenName (n ++ s)) st r ev.
Proof.
  induction 1 as [|c s Hc _ IH]; intros Hx n; [cbn; now rewrite app_nil_r|].
  inv Hx. rewrite run_cons. unfold tstep. rewrite H1. cbn [negb p_mode]. rewrite Hc.
  unfold goto. cbn [p_stack p_rooted p_evs]. rewrite IH by easy. now rewrite <- app_assoc.
Qed.

Lemma run_attr_name n l st r ev s : Forall (fun c => name_char c = true) s ->
  Forall (fun c => xml_char c = true) s -> forall a,
  run (P (MAttrName n l a) st r ev) s = P (MAttrName n l (a ++ s)) st r ev.
Proof.
  induction 1 as [|c s Hc _ IH]; intros Hx a; [cbn; now rewrite app_nil_r|].
  inv Hx. rewrite run_cons. unfold tstep. rewrite H1. cbn [negb p_mode]. rewrite Hc.
  unfold goto. cbn [p_stack p_rooted p_evs]. rewrite IH by easy. now rewrite <- app_assoc.
Qed.

Lemma run_close_name st r ev s : Forall (fun c => name_char c = true) s ->
  Forall (fun c => xml_char c = true) s -> forall n,
  run (P (MCloseName n) st r ev) s = P (MCloseName (n ++ s)) st r ev.
Proof.
  induction 1 as [|c s Hc _ IH]; intros Hx n; [cbn; now rewrite app_nil_r|].
  inv Hx. rewrite run_cons. unfold tstep. rewrite H1. cbn [negb p_mode]. rewrite Hc.
  unfold goto. cbn [p_stack p_rooted p_evs]. rewrite IH by easy. now rewrite <- app_assoc.
Qed.

(** ** Attributes *)

(** Inside a start tag, after the name or after an attribute. *)
Definition in_head (n : str) (l : list (str * str)) (m : mode) : Prop :=
  (l = [] /\ m = MOpenName n) \/ m = MInTag n l false.

Lemma name_start_facts c : name_start c = true -> ws c = false /\ (c =? 62) = false /\ (c =? 47) = false
  /\ (c =? 33) = false /\ (c =? 63) = false.
Proof. unfold name_start, ws. lia. Qed.

Lemma name_first_iff c : name_first c <-> name_start c = true.
Proof. unfold name_first, name_start. lia. Qed.
Lemma name_later_iff c : name_later c <-> name_char c = true.
Proof. unfold name_later, name_first, name_char, name_start. lia. Qed.
Lemma xml_name_cases c r : xml_name (c :: r) ->
  name_start c = true /\ Forall (fun c => name_char c = true) r /\ Forall (fun c => xml_char c = true) (c :: r).
Proof.
  intros (A & B & C). split; [now apply name_first_iff|]. split; [|exact C].
  eapply Forall_impl; [|exact B]. intros x. apply name_later_iff.
Qed.

Lemma run_attr n l m st r ev a v : in_head n l m -> xml_name a -> has_attr a l = false ->
  carried attr_ws v ->
  run (P m st r ev) (attr_text (a, esc v)) = P (MInTag n (l ++ [(a, v)]) false) st r ev.
Proof.
  intros Hm Ha Hl Hv. unfold attr_text. cbn [fst snd].
  assert (E : run (P m st r ev) (lit " ") = P (MInTag n l true) st r ev).
  { destruct Hm as [[-> ->] | ->]; reflexivity. }
  rewrite run_app, E. destruct a as [|c a]; [easy|]. apply xml_name_cases in Ha as (Hs & Hc & Hx).
  pose proof (name_start_facts c Hs) as (F1 & F2 & F3 & _).
  rewrite run_app, run_cons. inv Hx.
  assert (E2 : tstep attr_ws (P (MInTag n l true) st r ev) c = P (MAttrName n l [c]) st r ev).
  { unfold tstep. rewrite H1. cbn [negb p_mode]. rewrite F1, F2, F3, Hs. reflexivity. }
  rewrite E2, run_attr_name by easy. cbn [app].
  rewrite run_app.
  change (run (P (MAttrName n l (c :: a)) st r ev) (lit "=")) with (P (MBeforeVal n l (c :: a)) st r ev).
  change ([34] ++ esc v ++ [34]) with (34 :: (esc v ++ [34])).
  rewrite run_cons, run_app.
  change (tstep attr_ws (P (MBeforeVal n l (c :: a)) st r ev) 34) with (P (MVal n l (c :: a) 34 []) st r ev).
  rewrite run_value by easy. cbn [app trun fold_left]. unfold tstep. cbn [negb p_mode].
  change (xml_char 34) with true. change (34 =? 34) with true. cbn iota. cbn [negb].
  rewrite Hl. reflexivity.
Qed.

Lemma has_attr_in a l : has_attr a l = true <-> In a (map fst l).
Proof.
  unfold has_attr. rewrite existsb_exists. split.
  - intros ([k v] & Hin & E). apply str_eqb_eq in E. cbn in E. subst. apply (in_map fst _ _ Hin).
  - intros H. apply in_map_iff in H as ([k v] & E & Hin). cbn in E. subst.
    exists (a, v). split; [easy|apply str_eqb_refl].
Qed.

Definition esc_values (l : list (str * str)) : list (str * str) := map (fun p => (fst p, esc (snd p))) l.

Lemma run_attrs n st r ev al : forall l m, in_head n l m ->
  NoDup (map fst (l ++ al)) ->
  Forall (fun p => xml_name (fst p) /\ carried attr_ws (snd p)) al ->
  exists m', in_head n (l ++ al) m' /\
    run (P m st r ev) (attrs_text (esc_values al)) = P m' st r ev.
Proof.
  induction al as [|[a v] al IH]; intros l m Hm Hn Ha.
  - exists m. rewrite app_nil_r. easy.
  - inv Ha. destruct H1 as [Hname Hv]. cbn [fst snd] in *.
    cbn [esc_values map attrs_text flat_map fst snd]. rewrite run_app.
    assert (Hl : has_attr a l = false).
    { destruct (has_attr a l) eqn:E; [|easy]. apply has_attr_in in E.
      rewrite map_app in Hn. cbn in Hn. apply NoDup_remove_2 in Hn.
      elim Hn. apply in_or_app. now left. }
    rewrite (run_attr n l) by easy.
    destruct (IH (l ++ [(a, v)]) (MInTag n (l ++ [(a, v)]) false)) as (m' & Hm' & Hr).
    + now right.
    + now rewrite <- app_assoc.
    + easy.
    + exists m'. rewrite <- app_assoc in Hm'. split; [exact Hm'|exact Hr].
Qed.

(** ** Tags *)

Definition wsp (s : str) : Prop := Forall (fun c => ws c = true) s.

Lemma run_ws st r ev s : wsp s -> forall buf,
  run (P (MText buf) st r ev) s = P (MText (buf ++ s)) st r ev.
Proof.
  induction 1 as [|c s Hc _ IH]; intros buf; [cbn; now rewrite app_nil_r|].
  rewrite run_cons.
  assert (E : tstep attr_ws (P (MText buf) st r ev) c = P (MText (buf ++ [c])) st r ev).
  { unfold tstep. unfold ws in Hc. replace (xml_char c) with true by (unfold xml_char; lia).
    cbn [negb p_mode p_stack]. replace (c =? 60) with false by lia. replace (c =? 38) with false by lia.
    replace (ws c) with true by (unfold ws; lia). now destruct st. }
  rewrite E, IH. now rewrite <- app_assoc.
Qed.

Lemma run_start_tag st r ev w n : wsp w -> xml_name n -> (st <> [] \/ r = false) ->
  run (P (MText []) st r ev) (w ++ lit "<" ++ n) = P (MOpenName n) st r (ev ++ flush w).
Proof.
  intros Hw Hn Hr. rewrite run_app, run_ws by easy. cbn [app].
  rewrite run_app.
  change (run (P (MText w) st r ev) (lit "<")) with (P MLt st r (ev ++ flush w)).
  destruct n as [|c n]; [easy|]. apply xml_name_cases in Hn as (Hs & Hc & Hx). inv Hx.
  pose proof (name_start_facts c Hs) as (_ & _ & F3 & F4 & F5).
  rewrite run_cons.
  assert (E2 : tstep attr_ws (P MLt st r (ev ++ flush w)) c = P (MOpenName [c]) st r (ev ++ flush w)).
  { unfold tstep. rewrite H1. cbn [negb p_mode p_stack p_rooted]. rewrite F3, F4, F5, Hs.
    destruct st; [|reflexivity]. destruct Hr as [[]| ->]; easy. }
  rewrite E2, run_open_name by easy. reflexivity.
Qed.

Lemma run_gt n l m st r ev : in_head n l m ->
  run (P m st r ev) (lit ">") = P (MText []) (n :: st) true (ev ++ [EStart n l]).
Proof. intros [[-> ->] | ->]; reflexivity. Qed.

Lemma run_slash n l m st r ev : in_head n l m ->
  run (P m st r ev) (lit " />") = P (MText []) st true (ev ++ [EStart n l; EEnd n]).
Proof. intros [[-> ->] | ->]; reflexivity. Qed.

Lemma run_slash' n l m st r ev : in_head n l m ->
  run (P m st r ev) (lit "/>") = P (MText []) st true (ev ++ [EStart n l; EEnd n]).
Proof. intros [[-> ->] | ->]; reflexivity. Qed.

Lemma run_end_tag st r ev w n : wsp w -> xml_name n ->
  run (P (MText []) (n :: st) r ev) (w ++ lit "</" ++ n ++ lit ">")
  = P (MText []) st r (ev ++ flush w ++ [EEnd n]).
Proof.
  intros Hw Hn. rewrite run_app, run_ws by easy. cbn [app].
  rewrite run_app.
  change (run (P (MText w) (n :: st) r ev) (lit "</")) with (P MCloseStart (n :: st) r (ev ++ flush w)).
  rewrite run_app.
  assert (E : run (P MCloseStart (n :: st) r (ev ++ flush w)) n
    = P (MCloseName n) (n :: st) r (ev ++ flush w)).
  { destruct n as [|c n]; [easy|]. apply xml_name_cases in Hn as (Hs & Hc & Hx). inv Hx.
    rewrite run_cons.
    assert (E2 : tstep attr_ws (P MCloseStart ((c :: n) :: st) r (ev ++ flush w)) c
      = P (MCloseName [c]) ((c :: n) :: st) r (ev ++ flush w)).
    { unfold tstep. rewrite H1. cbn [negb p_mode]. rewrite Hs. reflexivity. }
    rewrite E2, run_close_name by easy. reflexivity. }
  rewrite E. cbn [trun fold_left lit]. unfold tstep. cbn.
  unfold close_element. cbn [p_stack]. rewrite str_eqb_refl. cbn. now rewrite <- app_assoc.
Qed.

(** A start tag with attributes, up to its end. *)
Lemma run_head st r ev w n l : wsp w -> xml_name n -> (st <> [] \/ r = false) ->
  NoDup (map fst l) -> Forall (fun p => xml_name (fst p) /\ carried attr_ws (snd p)) l ->
  exists m, in_head n l m /\
    run (P (MText []) st r ev) (w ++ lit "<" ++ n ++ attrs_text (esc_values l)) = P m st r (ev ++ flush w).
Proof.
  intros Hw Hn Hr Hl Ha.
  destruct (run_attrs n st r (ev ++ flush w) l [] (MOpenName n)) as (m & Hm & E); auto.
  { now left. }
  exists m. split; [exact Hm|].
  replace (w ++ lit "<" ++ n ++ attrs_text (esc_values l))
    with ((w ++ lit "<" ++ n) ++ attrs_text (esc_values l)) by (now rewrite <- !app_assoc).
  rewrite run_app, run_start_tag by easy. exact E.
Qed.

(** ** Objects *)

Definition raw : str -> str := fun s => s.

Definition child_events (n : str) (l : list (str * str)) : list event :=
  [EOther [10; 9; 9]; EStart n l; EEnd n].

Definition body_events (o : sobj) : list event :=
  flat_map (fun i => child_events (lit "nd") (nd_attrs i)) (obj_nds o)
  ++ flat_map (fun m => child_events (lit "member") (member_attrs raw m)) (obj_members o)
  ++ flat_map (fun t => child_events (lit "tag") (tag_attrs raw t)) (s_tags o).

Definition obj_events (o : sobj) : list event :=
  EStart (name_long (s_type o)) (obj_attrs raw o)
  :: (if short_form o then [EEnd (name_long (s_type o))]
      else body_events o ++ [EOther [10; 9]; EEnd (name_long (s_type o))]).

Lemma run_child s st ev n l l' e : xml_name n -> l' = esc_values l ->
  NoDup (map fst l) -> Forall (fun p => xml_name (fst p) /\ carried attr_ws (snd p)) l ->
  e = lit " />" \/ e = lit "/>" ->
  run (P (MText []) (s :: st) true ev) (child_text n l' e)
  = P (MText []) (s :: st) true (ev ++ child_events n l).
Proof.
  intros Hn -> Hl Ha He. unfold child_text.
  destruct (run_head (s :: st) true ev [10; 9; 9] n l) as (m & Hm & E); auto.
  { repeat constructor. }
  { left. discriminate. }
  replace ([10; 9; 9] ++ lit "<" ++ n ++ attrs_text (esc_values l) ++ e)
    with (([10; 9; 9] ++ lit "<" ++ n ++ attrs_text (esc_values l)) ++ e)
    by (now rewrite <- !app_assoc).
  rewrite run_app, E.
  destruct He as [-> | ->]; [rewrite (run_slash n l)|rewrite (run_slash' n l)]; try easy;
    unfold child_events; cbn [flush]; now rewrite <- app_assoc.
Qed.

Lemma run_flat {A} (f : A -> str) (g : A -> list event) s st l :
  (forall a, In a l -> forall ev, run (P (MText []) (s :: st) true ev) (f a)
     = P (MText []) (s :: st) true (ev ++ g a)) ->
  forall ev, run (P (MText []) (s :: st) true ev) (flat_map f l)
     = P (MText []) (s :: st) true (ev ++ flat_map g l).
Proof.
  induction l as [|a l IH]; intros H ev; cbn [flat_map].
  - cbn. now rewrite app_nil_r.
  - rewrite run_app, H by (now left). rewrite IH by (intros; apply H; now right).
    now rewrite <- app_assoc.
Qed.

Lemma xml_name_lit (s : string) :
  (match lit s with c :: r => name_start c && forallb name_char r && forallb xml_char (c :: r) | [] => false end) = true ->
  xml_name (lit s).
Proof.
  unfold xml_name. destruct (lit s) as [|c r]; [easy|].
  rewrite !andb_true_iff, !forallb_forall. intros [[H1 H2] H3].
  split; [now apply name_first_iff|]. split; [|now apply Forall_forall].
  apply Forall_forall. intros x Hx. now apply name_later_iff, H2.
Qed.

Ltac name_ok := apply xml_name_lit; reflexivity.
Ltac attrs_ok := repeat (apply Forall_cons; [split; cbn [fst snd]; [name_ok|]|]); try apply Forall_nil.

Lemma esc_show_int n : esc (show_int n) = show_int n.
Proof. apply unmarked_esc, tame_unmarked, show_int_tame. Qed.
Lemma esc_show_uint n : 0 <= n -> esc (show_uint n) = show_uint n.
Proof. intros. now apply unmarked_esc, tame_unmarked, show_uint_tame. Qed.
Lemma esc_show_coord n : esc (show_coord n) = show_coord n.
Proof. apply unmarked_esc, tame_unmarked, show_coord_tame. Qed.
Lemma esc_name_long t : esc (name_long t) = name_long t.
Proof. apply unmarked_esc, tame_unmarked, name_long_tame. Qed.

Lemma esc_iso t : safe_timestamp attr_ws t -> esc (to_iso_string t) = to_iso_string t.
Proof.
  destruct t as [s|t]; intros H.
  - cbn in *. now apply unmarked_esc.
  - apply unmarked_esc, tame_unmarked, epoch_iso_tame.
Qed.

Lemma carried_iso t : safe_timestamp attr_ws t -> carried attr_ws (to_iso_string t).
Proof.
  destruct t as [s|t]; intros H; [now destruct H|]. apply tame_carried, epoch_iso_tame.
Qed.

Lemma run_body o s st ev : texts_carried attr_ws o ->
  run (P (MText []) (s :: st) true ev) (children_text o)
  = P (MText []) (s :: st) true (ev ++ body_events o).
Proof.
  intros (_ & Ht & Hm). unfold children_text, body_events. rewrite !run_app.
  rewrite (run_flat _ (fun i => child_events (lit "nd") (nd_attrs i))).
  2:{ intros i _ ev'. apply run_child; [name_ok| | | |now left].
      - unfold nd_attrs, esc_values. cbn [map fst snd]. now rewrite esc_show_int.
      - repeat constructor; easy.
      - attrs_ok. apply tame_carried, show_int_tame. }
  rewrite (run_flat _ (fun m => child_events (lit "member") (member_attrs raw m))).
  2:{ intros [[t i] role] Hin ev'. apply run_child; [name_ok| | | |now right].
      - unfold member_attrs, esc_values. cbn [map fst snd]. now rewrite esc_show_int, esc_name_long.
      - repeat constructor; cbn; intuition discriminate.
      - attrs_ok.
        + apply tame_carried, name_long_tame.
        + apply tame_carried, show_int_tame.
        + destruct o as [|w|r]; try easy. cbn in Hm, Hin.
          rewrite Forall_forall in Hm. exact (Hm _ Hin). }
  rewrite (run_flat _ (fun t => child_events (lit "tag") (tag_attrs raw t))).
  2:{ intros [k v] Hin ev'. apply run_child; [name_ok|reflexivity| | |now left].
      - repeat constructor; cbn; intuition discriminate.
      - rewrite Forall_forall in Ht. destruct (Ht _ Hin).
        attrs_ok; easy. }
  now rewrite <- !app_assoc.
Qed.

Lemma opt_prop_some {A} (Q : A -> Prop) x : opt_prop Q (Some x) -> Q x. Proof. easy. Qed.

Lemma obj_attrs_names o : NoDup (map fst (obj_attrs raw o)).
Proof.
  unfold obj_attrs.
  assert (H : NoDup [lit "id"; lit "visible"; lit "version"; lit "user"; lit "uid"; lit "changeset";
    lit "timestamp"; lit "lat"; lit "lon"]).
  { repeat (constructor; [cbn; intuition discriminate|]). constructor. }
  set (names := [lit "id"; lit "visible"; lit "version"; lit "user"; lit "uid"; lit "changeset";
    lit "timestamp"; lit "lat"; lit "lon"]) in *.
  destruct (m_version (s_meta o)), (m_user (s_meta o)), (m_uid (s_meta o)), (m_changeset (s_meta o)),
    (m_timestamp (s_meta o)); destruct o as [[m ts [[la lo]|]]|w|r]; cbn [opt_list sn_latlon map fst app];
    repeat (constructor; [cbn; intuition discriminate|]); constructor.
Qed.

Lemma obj_attrs_esc o : in_range o -> opt_prop (safe_timestamp attr_ws) (m_timestamp (s_meta o)) ->
  obj_attrs esc o = esc_values (obj_attrs raw o).
Proof.
  intros (_ & Hv & Hc & Hu & _) Ht. unfold obj_attrs, esc_values. rewrite !map_app.
  assert (Ev : forall b : bool, esc (if b then lit "false" else lit "true") = if b then lit "false" else lit "true")
    by (now intros []).
  f_equal; [cbn [map fst snd]; now rewrite esc_show_int, Ev|].
  f_equal; [destruct (m_version (s_meta o)); cbn [opt_list map fst snd]; [|easy]; cbn in Hv;
    unfold in_u32 in Hv; rewrite esc_show_uint by lia; reflexivity|].
  f_equal; [destruct (m_user (s_meta o)); reflexivity|].
  f_equal; [destruct (m_uid (s_meta o)); cbn [opt_list map fst snd]; [|easy]; cbn in Hu;
    unfold in_u32 in Hu; rewrite esc_show_uint by lia; reflexivity|].
  f_equal; [destruct (m_changeset (s_meta o)); cbn [opt_list map fst snd]; [|easy]; cbn in Hc;
    unfold in_u32 in Hc; rewrite esc_show_uint by lia; reflexivity|].
  f_equal; [destruct (m_timestamp (s_meta o)); cbn [opt_list map fst snd]; [|easy]; cbn in Ht;
    rewrite esc_iso by easy; reflexivity|].
  destruct o as [[m ts [[la lo]|]]|w|r]; cbn [opt_list sn_latlon map fst snd]; try easy.
  now rewrite !esc_show_coord.
Qed.

Lemma Forall_opt_list {A B} (Q : B -> Prop) (o : option A) f :
  (forall a, o = Some a -> Forall Q (f a)) -> Forall Q (opt_list o f).
Proof. destruct o; cbn; intros H; [now apply H|constructor]. Qed.

Lemma obj_attrs_carried o : in_range o -> texts_carried attr_ws o ->
  opt_prop (safe_timestamp attr_ws) (m_timestamp (s_meta o)) ->
  Forall (fun p => xml_name (fst p) /\ carried attr_ws (snd p)) (obj_attrs raw o).
Proof.
  intros (_ & Hv & Hc & Hu & _) (Hus & _) Ht. unfold obj_attrs, raw.
  repeat (apply Forall_app; split).
  - attrs_ok; apply tame_carried; [apply show_int_tame|].
    destruct (m_deleted (s_meta o)); repeat constructor; unfold tame; cbn; lia.
  - apply Forall_opt_list. intros v E. rewrite E in Hv. cbn in Hv. unfold in_u32 in Hv.
    attrs_ok. apply tame_carried, show_uint_tame. lia.
  - apply Forall_opt_list. intros v E. rewrite E in Hus. cbn in Hus.
    attrs_ok. exact Hus.
  - apply Forall_opt_list. intros v E. rewrite E in Hu. cbn in Hu. unfold in_u32 in Hu.
    attrs_ok. apply tame_carried, show_uint_tame. lia.
  - apply Forall_opt_list. intros v E. rewrite E in Hc. cbn in Hc. unfold in_u32 in Hc.
    attrs_ok. apply tame_carried, show_uint_tame. lia.
  - apply Forall_opt_list. intros v E. rewrite E in Ht. cbn in Ht.
    attrs_ok. now apply carried_iso.
  - destruct o as [[m ts ll]|w|r]; try constructor. cbn [sn_latlon].
    apply Forall_opt_list. intros [la lo] _.
    attrs_ok; apply tame_carried, show_coord_tame.
Qed.

Lemma name_long_name t : xml_name (name_long t).
Proof. destruct t; name_ok. Qed.

Lemma run_obj o s st ev : in_range o -> texts_carried attr_ws o ->
  opt_prop (safe_timestamp attr_ws) (m_timestamp (s_meta o)) ->
  run (P (MText []) (s :: st) true ev) (obj_text o)
  = P (MText []) (s :: st) true (ev ++ EOther [10; 9] :: obj_events o).
Proof.
  intros Hr Hc Ht. unfold obj_text, obj_events.
  rewrite obj_attrs_esc by easy.
  destruct (run_head (s :: st) true ev [10; 9] (name_long (s_type o)) (obj_attrs raw o))
    as (m & Hm & E).
  { repeat constructor. }
  { apply name_long_name. }
  { left. discriminate. }
  { apply obj_attrs_names. }
  { now apply obj_attrs_carried. }
  set (rest := if short_form o then _ else _).
  replace ([10; 9] ++ lit "<" ++ name_long (s_type o) ++ attrs_text (esc_values (obj_attrs raw o)) ++ rest)
    with (([10; 9] ++ lit "<" ++ name_long (s_type o) ++ attrs_text (esc_values (obj_attrs raw o))) ++ rest)
    by (now rewrite <- !app_assoc).
  rewrite run_app, E. unfold rest. destruct (short_form o).
  - rewrite (run_slash _ _ _ _ _ _ Hm). cbn [flush]. now rewrite <- app_assoc.
  - rewrite run_app, (run_gt _ _ _ _ _ _ Hm). rewrite run_app, run_body by easy.
    rewrite run_end_tag; [|repeat constructor|apply name_long_name].
    cbn [flush]. now rewrite <- !app_assoc.
Qed.

Lemma run_objs os s st : Forall (xml_object attr_ws) os -> forall ev,
  run (P (MText []) (s :: st) true ev) (flat_map obj_text os)
  = P (MText []) (s :: st) true (ev ++ flat_map (fun o => EOther [10; 9] :: obj_events o) os).
Proof.
  intros H. apply run_flat. intros o Hin ev. rewrite Forall_forall in H.
  destruct (H o Hin) as (H1 & H2 & H3 & H4 & H5). now apply run_obj.
Qed.

(** ** Documents *)

Lemma run_declaration : run tstart declaration = P (MText [10]) [] false [EOther []; EOther []].
Proof. reflexivity. Qed.

(** Header attributes that make the root tag well-formed. *)
Definition good_headers (hs : list (str * str)) : Prop :=
  NoDup (map fst hs) /\ ~ In (lit "version") (map fst hs) /\ ~ In (lit "generator") (map fst hs)
  /\ Forall (fun h => xml_name (fst h) /\ carried attr_ws (snd h)) hs.

Lemma run_root w n l : wsp w -> xml_name n -> NoDup (map fst l) ->
  Forall (fun p => xml_name (fst p) /\ carried attr_ws (snd p)) l -> forall buf ev,
  run (P (MText buf) [] false ev) (w ++ lit "<" ++ n ++ attrs_text (esc_values l) ++ lit ">")
  = P (MText []) [n] true (ev ++ flush (buf ++ w) ++ [EStart n l]).
Proof.
  intros Hw Hn Hl Ha buf ev.
  rewrite run_app, run_ws by easy.
  rewrite run_app.
  change (run (P (MText (buf ++ w)) [] false ev) (lit "<")) with (P MLt [] false (ev ++ flush (buf ++ w))).
  destruct (run_attrs n [] false (ev ++ flush (buf ++ w)) l [] (MOpenName n)) as (m & Hm & E); auto.
  { now left. }
  rewrite run_app.
  assert (En : run (P MLt [] false (ev ++ flush (buf ++ w))) n = P (MOpenName n) [] false (ev ++ flush (buf ++ w))).
  { destruct n as [|c n]; [easy|]. apply xml_name_cases in Hn as (Hs & Hc & Hx). inv Hx.
    pose proof (name_start_facts c Hs) as (_ & _ & F3 & F4 & F5).
    rewrite run_cons. 
    assert (E2 : tstep attr_ws (P MLt [] false (ev ++ flush (buf ++ w))) c
      = P (MOpenName [c]) [] false (ev ++ flush (buf ++ w))).
    { unfold tstep. rewrite H1. cbn [negb p_mode p_stack p_rooted]. now rewrite F3, F4, F5, Hs. }
    rewrite E2, run_open_name by easy. reflexivity. }
  rewrite En, run_app, E, (run_gt _ _ _ _ _ _ Hm). now rewrite <- app_assoc.
Qed.

Lemma root_attrs_ok : NoDup (map fst root_attrs) /\
  Forall (fun p => xml_name (fst p) /\ carried attr_ws (snd p)) root_attrs
  /\ esc_values root_attrs = root_attrs.
Proof.
  split; [repeat constructor; cbn; intuition discriminate|]. split; [|reflexivity].
  unfold root_attrs. attrs_ok; apply tame_carried; repeat constructor; unfold tame; cbn; lia.
Qed.

Lemma run_xml_opening hs : good_headers hs ->
  run tstart (xml_opening hs)
  = P (MText []) [lit "osm"] true [EOther []; EOther []; EOther [10]; EStart (lit "osm") (root_attrs ++ hs)].
Proof.
  intros (Hn & Hv & Hg & Hh). unfold xml_opening. rewrite run_app, run_declaration.
  destruct root_attrs_ok as (R1 & R2 & R3).
  replace (root_attrs ++ map (fun h => (fst h, esc (snd h))) hs) with (esc_values (root_attrs ++ hs))
    by (unfold esc_values; rewrite map_app; f_equal; exact R3).
  change (lit "<osm") with ([] ++ lit "<" ++ lit "osm").
  rewrite <- !app_assoc. rewrite run_root; [reflexivity|constructor|name_ok| |].
  - cbn. constructor; [|constructor; [|exact Hn]].
    + intros [H|H]; [discriminate|easy].
    + easy.
  - apply Forall_app. easy.
Qed.

Lemma run_osc_opening :
  run tstart osc_opening
  = P (MText []) [lit "modify"; lit "osmChange"] true
      [EOther []; EOther []; EOther [10]; EStart (lit "osmChange") root_attrs; EOther [10]; EStart (lit "modify") []].
Proof.
  unfold osc_opening. rewrite run_app, run_declaration.
  destruct root_attrs_ok as (R1 & R2 & R3). rewrite <- R3 at 1.
  replace (lit "<osmChange" ++ attrs_text (esc_values root_attrs) ++ lit ">" ++ [10] ++ lit "<modify>")
    with (([] ++ lit "<" ++ lit "osmChange" ++ attrs_text (esc_values root_attrs) ++ lit ">") ++ [10] ++ lit "<modify>")
    by (now rewrite <- !app_assoc).
  rewrite run_app, run_root; [|constructor|name_ok|easy|easy]. reflexivity.
Qed.

Definition xml_pre (hs : list (str * str)) : list event :=
  [EOther []; EOther []; EOther [10]; EStart (lit "osm") (root_attrs ++ hs)].
Definition osc_pre : list event :=
  [EOther []; EOther []; EOther [10]; EStart (lit "osmChange") root_attrs; EOther [10]; EStart (lit "modify") []].
Definition objs_events (os : list sobj) : list event :=
  flat_map (fun o => EOther [10; 9] :: obj_events o) os.

Lemma xml_document_items hs os : good_headers hs -> Forall (xml_object attr_ws) os ->
  titems (run tstart (xml_document hs os))
  = map IEv (xml_pre hs ++ objs_events os ++ [EOther [10]; EEnd (lit "osm"); EOther []]).
Proof.
  intros Hh Ho. unfold xml_document. rewrite !run_app, run_xml_opening, run_objs by easy.
  unfold xml_closing. change (lit "</osm>") with (lit "</" ++ lit "osm" ++ lit ">").
  rewrite run_end_tag; [|repeat constructor|name_ok].
  unfold titems. cbn [p_mode p_stack p_rooted p_evs flush].
  unfold xml_pre, objs_events. f_equal. rewrite <- !app_assoc. reflexivity.
Qed.

Lemma osc_document_items os : Forall (xml_object attr_ws) os ->
  titems (run tstart (osc_document os))
  = map IEv (osc_pre ++ objs_events os ++
      [EOther [10]; EEnd (lit "modify"); EOther [10]; EEnd (lit "osmChange"); EOther []]).
Proof.
  intros Ho. unfold osc_document. rewrite !run_app, run_osc_opening, run_objs by easy.
  unfold osc_closing.
  replace ([10] ++ lit "</modify>" ++ [10] ++ lit "</osmChange>")
    with (([10] ++ lit "</" ++ lit "modify" ++ lit ">") ++ ([10] ++ lit "</" ++ lit "osmChange" ++ lit ">"))
    by reflexivity.
  rewrite run_app, !run_end_tag; [|repeat constructor|name_ok|repeat constructor|name_ok].
  unfold titems. cbn [p_mode p_stack p_rooted p_evs flush].
  unfold osc_pre, objs_events. f_equal. rewrite <- !app_assoc. reflexivity.
Qed.

(** The items for a text. *)
Definition run_xml_items (s : str) : list item := titems (run tstart s).

End Tokenize.
