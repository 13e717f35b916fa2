(** What the tokenizer makes of any object's text: attribute values come back as the parser
    normalises them, unless they break the document. *)
From Coq Require Import String ZArith List Bool Lia.
From Coq Require Import ZifyBool ZifyNat.
From Verif Require Import Base SpecNum Ints SpecCal Timestamp TimestampFacts Obj Coord CoordFacts Utf8
  SpecXml XmlToken XmlRead SpecXmlRead XmlReadFacts SpecIter XmlRound XmlReadBack XmlTrunc SpecXmlText.
Import ListNotations.
Open Scope Z_scope.

Definition xchars (s : str) : Prop := Forall (fun c => xml_char c = true) s.
Definition plainb (s : str) : bool := forallb (fun c => negb ((c =? 38) || (c =? 60) || (c =? 34))) s.
Lemma plainb_iff s : plainb s = true <-> plain s.
Proof.
  unfold plainb, plain. rewrite forallb_forall, Forall_forall. split; intros H c Hc; specialize (H c Hc); lia.
Qed.
Definition xcharsb (s : str) : bool := forallb xml_char s.
Lemma xcharsb_iff s : xcharsb s = true <-> xchars s.
Proof. unfold xcharsb, xchars. rewrite forallb_forall, Forall_forall. reflexivity. Qed.

Ltac name_ok := apply xml_name_lit; reflexivity.

Section Exact.
Variable attr_ws : char -> char.
Hypothesis Hws : normalises attr_ws.
Notation run := (trun attr_ws).

Definition nrm (s : str) : str := map attr_ws s.

Lemma carried_nrm s : carried attr_ws s <-> xchars s /\ nrm s = s.
Proof.
  unfold carried, xchars, nrm. induction s as [|c s IH]; [easy|]. cbn [map]. split.
  - intros H. inv H. destruct H2 as [A B]. apply IH in H3 as [C D]. split; [now constructor|now rewrite B, D].
  - intros [A B]. inv A. injection B as B1 B2. constructor; [easy|]. apply IH. easy.
Qed.

Lemma tame_nrm s : Forall tame s -> xchars s /\ nrm s = s.
Proof. intros H. apply carried_nrm. now apply tame_carried. Qed.

(** ** Values *)

Definition parses (t v : str) : Prop := forall n l a st r ev v0,
  run (P (MVal n l a 34 v0) st r ev) t = P (MVal n l a 34 (v0 ++ v)) st r ev.

Lemma parses_raw s : xchars s -> plain s -> parses s (nrm s).
Proof.
  induction 1 as [|c s Hx _ IH]; intros Hp n l a st r ev v0; [cbn; now rewrite app_nil_r|].
  inv Hp. destruct H1 as (A & B & C). rewrite run_cons.
  replace (tstep attr_ws (P (MVal n l a 34 v0) st r ev) c) with (P (MVal n l a 34 (v0 ++ [attr_ws c])) st r ev).
  - rewrite IH by easy. cbn [nrm map]. now rewrite <- app_assoc.
  - unfold tstep. rewrite Hx. cbn [negb p_mode]. replace (c =? 34) with false by lia. replace (c =? 38) with false by lia.
    replace (c =? 60) with false by lia. reflexivity.
Qed.

Lemma parses_esc s : xchars s -> parses (esc s) (nrm s).
Proof.
  induction 1 as [|c s Hx _ IH]; intros n l a st r ev v0; [cbn; now rewrite app_nil_r|].
  cbn [esc flat_map]. rewrite run_app.
  assert (E : run (P (MVal n l a 34 v0) st r ev) (esc_char c) = P (MVal n l a 34 (v0 ++ [attr_ws c])) st r ev).
  { unfold esc_char. change (chr "&") with 38. change (chr "'") with 39. change (chr "<") with 60. change (chr ">") with 62.
    assert (K : forall d, d <> 9 -> d <> 10 -> d <> 13 -> attr_ws d = d) by (intros; now apply Hws).
    destruct (c =? 38) eqn:E1; [apply Z.eqb_eq in E1 as ->; rewrite K by lia; reflexivity|].
    destruct (c =? 34) eqn:E2; [apply Z.eqb_eq in E2 as ->; rewrite K by lia; reflexivity|].
    destruct (c =? 39) eqn:E3; [apply Z.eqb_eq in E3 as ->; rewrite K by lia; reflexivity|].
    destruct (c =? 60) eqn:E4; [apply Z.eqb_eq in E4 as ->; rewrite K by lia; reflexivity|].
    destruct (c =? 62) eqn:E5; [apply Z.eqb_eq in E5 as ->; rewrite K by lia; reflexivity|].
    cbn [trun fold_left]. unfold tstep. rewrite Hx. cbn [negb p_mode]. rewrite E2, E1, E4. reflexivity. }
  rewrite E. change (flat_map esc_char s) with (esc s). rewrite IH. cbn [nrm map]. now rewrite <- app_assoc.
Qed.

Lemma parses_tame s : Forall tame s -> parses s s.
Proof.
  intros H. destruct (tame_nrm s H) as [A B]. rewrite <- B at 2. apply parses_raw; [exact A|].
  eapply Forall_impl; [|exact H]. unfold tame. lia.
Qed.

(** ** Attributes *)

Definition gives (t v : str * str) : Prop := fst t = fst v /\ xml_name (fst v) /\ parses (snd t) (snd v).

(** Up to the opening quote. *)
Lemma run_to_value n l m st r ev a : in_head n l m -> xml_name a ->
  run (P m st r ev) (lit " " ++ a ++ lit "=" ++ [34]) = P (MVal n l a 34 []) st r ev.
Proof.
  intros Hm Ha.
  assert (E : run (P m st r ev) (lit " ") = P (MInTag n l true) st r ev).
  { destruct Hm as [[-> ->] | ->]; reflexivity. }
  rewrite run_app, E. destruct a as [|c a]; [easy|]. apply xml_name_cases in Ha as (Hs & Hc & Hx).
  pose proof (name_start_facts c Hs) as (F1 & F2 & F3 & _).
  rewrite run_app, run_cons. inv Hx.
  assert (E2 : tstep attr_ws (P (MInTag n l true) st r ev) c = P (MAttrName n l [c]) st r ev).
  { unfold tstep. rewrite H1. cbn [negb p_mode]. rewrite F1, F2, F3, Hs. reflexivity. }
  rewrite E2, run_attr_name by easy. reflexivity.
Qed.

Lemma run_close_value n l a v st r ev : has_attr a l = false ->
  run (P (MVal n l a 34 v) st r ev) [34] = P (MInTag n (l ++ [(a, v)]) false) st r ev.
Proof.
  intros Hl. cbn [trun fold_left]. unfold tstep. cbn [negb p_mode].
  change (xml_char 34) with true. change (34 =? 34) with true. cbn iota. cbn [negb]. rewrite Hl. reflexivity.
Qed.

Lemma run_attr_g n l m st r ev t v : in_head n l m -> gives t v -> has_attr (fst v) l = false ->
  run (P m st r ev) (attr_text t) = P (MInTag n (l ++ [v]) false) st r ev.
Proof.
  intros Hm (E & Ha & Hp) Hl. destruct t as [a x], v as [b y]. cbn [fst snd] in *. subst b.
  unfold attr_text. cbn [fst snd].
  replace (lit " " ++ a ++ lit "=" ++ [34] ++ x ++ [34]) with ((lit " " ++ a ++ lit "=" ++ [34]) ++ x ++ [34])
    by (now rewrite <- !app_assoc).
  rewrite run_app, (run_to_value n l) by easy. rewrite run_app, Hp. cbn [app]. now apply run_close_value.
Qed.

Lemma run_attrs_g n st r ev tl vl : Forall2 gives tl vl -> forall l m, in_head n l m ->
  NoDup (map fst (l ++ vl)) ->
  exists m', in_head n (l ++ vl) m' /\ run (P m st r ev) (attrs_text tl) = P m' st r ev.
Proof.
  induction 1 as [|t v tl vl Hg _ IH]; intros l m Hm Hn.
  - exists m. rewrite app_nil_r. easy.
  - cbn [attrs_text flat_map]. rewrite run_app.
    assert (Hl : has_attr (fst v) l = false).
    { destruct (has_attr (fst v) l) eqn:E; [|easy]. apply has_attr_in in E.
      rewrite map_app in Hn. cbn in Hn. apply NoDup_remove_2 in Hn. elim Hn. apply in_or_app. now left. }
    rewrite (run_attr_g n l m st r ev t v) by easy.
    destruct (IH (l ++ [v]) (MInTag n (l ++ [v]) false)) as (m' & Hm' & Hr).
    + now right.
    + now rewrite <- app_assoc.
    + exists m'. rewrite <- app_assoc in Hm'. split; [exact Hm'|exact Hr].
Qed.

Lemma run_head_g st r ev w n tl vl : wsp w -> xml_name n -> (st <> [] \/ r = false) ->
  NoDup (map fst vl) -> Forall2 gives tl vl ->
  exists m, in_head n vl m /\
    run (P (MText []) st r ev) (w ++ lit "<" ++ n ++ attrs_text tl) = P m st r (ev ++ flush w).
Proof.
  intros Hw Hn Hr Hl Ha.
  destruct (run_attrs_g n st r (ev ++ flush w) tl vl Ha [] (MOpenName n)) as (m & Hm & E); auto.
  { now left. }
  exists m. split; [exact Hm|].
  replace (w ++ lit "<" ++ n ++ attrs_text tl) with ((w ++ lit "<" ++ n) ++ attrs_text tl) by (now rewrite <- !app_assoc).
  rewrite run_app, run_start_tag by easy. exact E.
Qed.

Lemma run_child_g s st ev n tl vl e : xml_name n -> Forall2 gives tl vl -> NoDup (map fst vl) ->
  e = lit " />" \/ e = lit "/>" ->
  run (P (MText []) (s :: st) true ev) (child_text n tl e) = P (MText []) (s :: st) true (ev ++ child_events n vl).
Proof.
  intros Hn Hg Hl He. unfold child_text.
  destruct (run_head_g (s :: st) true ev [10; 9; 9] n tl vl) as (m & Hm & E); auto.
  { repeat constructor. }
  { left. discriminate. }
  replace ([10; 9; 9] ++ lit "<" ++ n ++ attrs_text tl ++ e) with (([10; 9; 9] ++ lit "<" ++ n ++ attrs_text tl) ++ e)
    by (now rewrite <- !app_assoc).
  rewrite run_app, E.
  destruct He as [-> | ->]; [rewrite (run_slash attr_ws n vl)|rewrite (run_slash' attr_ws n vl)]; try easy;
    unfold child_events; cbn [flush]; now rewrite <- app_assoc.
Qed.

(** ** Objects *)

(** An object as it comes back if all its texts are characters of XML. *)
Definition nrm_meta (m : meta) : meta :=
  Meta (m_id m) (m_version m) (m_deleted m) (m_changeset m)
    (opt_map (fun t => ISOString (nrm (to_iso_string t))) (m_timestamp m)) (m_uid m) (opt_map nrm (m_user m)).
Definition nrm_tags (l : list (str * str)) : list (str * str) := map (fun t => (nrm (fst t), nrm (snd t))) l.
Definition nrm_obj (o : sobj) : sobj :=
  match o with
  | SNode n => SNode (SN (nrm_meta (sn_meta n)) (nrm_tags (sn_tags n)) (sn_latlon n))
  | SWay w => SWay (SW (nrm_meta (sw_meta w)) (nrm_tags (sw_tags w)) (sw_nodes w))
  | SRel r => SRel (SR (nrm_meta (sr_meta r)) (nrm_tags (sr_tags r))
                       (map (fun m => (fst m, nrm (snd m))) (sr_members r)))
  end.

Lemma gives_tame a s : xml_name a -> Forall tame s -> gives (a, s) (a, s).
Proof. intros H1 H2. split; [reflexivity|]. split; [exact H1|]. now apply parses_tame. Qed.

Lemma gives_esc a s : xml_name a -> xchars s -> gives (a, esc s) (a, nrm s).
Proof. intros H1 H2. split; [reflexivity|]. split; [exact H1|]. now apply parses_esc. Qed.

Lemma children_g o s st ev : texts xchars (fun _ => True) o ->
  run (P (MText []) (s :: st) true ev) (children_text o)
  = P (MText []) (s :: st) true (ev ++ body_events (nrm_obj o)).
Proof.
  intros (_ & Ht & Hm & _). unfold children_text, body_events. rewrite !run_app.
  rewrite (run_flat attr_ws _ (fun i => child_events (lit "nd") (nd_attrs i))).
  2:{ intros i _ ev'. apply run_child_g; [name_ok| | |now left].
      - apply Forall2_cons; [|constructor]. apply gives_tame; [name_ok|apply show_int_tame].
      - repeat constructor; easy. }
  rewrite (run_flat attr_ws _ (fun m => child_events (lit "member") (member_attrs raw (fst m, nrm (snd m))))).
  2:{ intros [[t i] role] Hin ev'. rewrite Forall_forall in Hm. specialize (Hm _ Hin). cbn [snd fst] in *.
      apply run_child_g; [name_ok| | |now right].
      - apply Forall2_cons; [apply gives_tame; [name_ok|apply name_long_tame]|].
        apply Forall2_cons; [apply gives_tame; [name_ok|apply show_int_tame]|].
        apply Forall2_cons; [|constructor]. apply gives_esc; [name_ok|exact Hm].
      - repeat constructor; cbn; intuition discriminate. }
  rewrite (run_flat attr_ws _ (fun t => child_events (lit "tag") (tag_attrs raw (nrm (fst t), nrm (snd t))))).
  2:{ intros [k v] Hin ev'. rewrite Forall_forall in Ht. destruct (Ht _ Hin) as [A B]. cbn [snd fst] in *.
      apply run_child_g; [name_ok| | |now left].
      - apply Forall2_cons; [apply gives_esc; [name_ok|exact A]|].
        apply Forall2_cons; [|constructor]. apply gives_esc; [name_ok|exact B].
      - repeat constructor; cbn; intuition discriminate. }
  rewrite <- !app_assoc. f_equal. f_equal.
  assert (F : forall A B (f : B -> list event) (g : A -> B) l, flat_map (fun x => f (g x)) l = flat_map f (map g l)).
  { intros A B f g l. induction l; cbn; congruence. }
  destruct o as [n|w|r]; cbn [nrm_obj obj_nds obj_members s_tags sn_tags sw_tags sr_tags sw_nodes sr_members];
    rewrite (F _ _ (fun t => child_events (lit "tag") (tag_attrs raw t)) (fun t => (nrm (fst t), nrm (snd t)))),
      (F _ _ (fun m => child_events (lit "member") (member_attrs raw m)) (fun m => (fst m, nrm (snd m))));
    reflexivity.
Qed.

Lemma nrm_meta_eq o : s_meta (nrm_obj o) = nrm_meta (s_meta o).
Proof. now destruct o. Qed.
Lemma nrm_type o : s_type (nrm_obj o) = s_type o.
Proof. now destruct o. Qed.
Lemma nrm_short o : short_form (nrm_obj o) = short_form o.
Proof. destruct o as [[m [|t ts] p]|w|r]; reflexivity. Qed.
Lemma nrm_range o : in_range o -> in_range (nrm_obj o).
Proof.
  unfold in_range. rewrite nrm_meta_eq. cbn [nrm_meta m_id m_version m_changeset m_uid].
  intros (A & B & C & D & E). do 4 (split; [assumption|]). destruct o as [n|w|r]; [exact E|exact E|].
  cbn [nrm_obj sr_members]. apply Forall_map. exact E.
Qed.
Lemma nrm_position o : has_position (nrm_obj o) <-> has_position o.
Proof. now destruct o. Qed.

(** The attributes before the timestamp and after it. *)
Definition attrs_before (q : str -> str) (o : sobj) : list (str * str) :=
  let m := s_meta o in
  [(lit "id", show_int (m_id m));
   (lit "visible", if m_deleted m then lit "false" else lit "true")]
  ++ opt_list (m_version m) (fun v => [(lit "version", show_uint v)])
  ++ opt_list (m_user m) (fun u => [(lit "user", q u)])
  ++ opt_list (m_uid m) (fun u => [(lit "uid", show_uint u)])
  ++ opt_list (m_changeset m) (fun c => [(lit "changeset", show_uint c)]).
Definition attrs_after (o : sobj) : list (str * str) :=
  match o with
  | SNode n => opt_list (sn_latlon n) (fun '(lat, lon) => [(lit "lat", show_coord lat); (lit "lon", show_coord lon)])
  | _ => []
  end.
Lemma obj_attrs_split q o : obj_attrs q o = attrs_before q o
  ++ opt_list (m_timestamp (s_meta o)) (fun t => [(lit "timestamp", to_iso_string t)]) ++ attrs_after o.
Proof. unfold obj_attrs, attrs_before, attrs_after. cbv zeta. rewrite <- !app_assoc. reflexivity. Qed.

Lemma before_g o : in_range o -> opt_prop xchars (m_user (s_meta o)) ->
  Forall2 gives (attrs_before esc o) (attrs_before raw (nrm_obj o)).
Proof.
  intros (_ & Hv & Hc & Hu & _) Hus. unfold attrs_before. cbv zeta. rewrite nrm_meta_eq.
  cbn [nrm_meta m_id m_version m_changeset m_uid m_user m_deleted].
  repeat apply Forall2_app.
  - apply Forall2_cons; [apply gives_tame; [name_ok|apply show_int_tame]|].
    apply Forall2_cons; [|constructor]. apply gives_tame; [name_ok|].
    destruct (m_deleted (s_meta o)); repeat constructor; unfold tame; cbn; lia.
  - destruct (m_version (s_meta o)); cbn [opt_list opt_prop] in Hv |- *; unfold in_u32 in *; constructor; [|constructor].
    apply gives_tame; [name_ok|]. apply show_uint_tame. lia.
  - destruct (m_user (s_meta o)); cbn [opt_list opt_map]; constructor; [|constructor]. apply gives_esc; [name_ok|exact Hus].
  - destruct (m_uid (s_meta o)); cbn [opt_list opt_prop] in Hu |- *; unfold in_u32 in *; constructor; [|constructor].
    apply gives_tame; [name_ok|]. apply show_uint_tame. lia.
  - destruct (m_changeset (s_meta o)); cbn [opt_list opt_prop] in Hc |- *; unfold in_u32 in *; constructor; [|constructor].
    apply gives_tame; [name_ok|]. apply show_uint_tame. lia.
Qed.

Lemma after_g o : Forall2 gives (attrs_after o) (attrs_after (nrm_obj o)).
Proof.
  destruct o as [n|w|r]; try constructor. cbn [nrm_obj attrs_after sn_latlon].
  destruct (sn_latlon n) as [[la lo]|]; cbn [opt_list]; constructor; [|constructor; [|constructor]];
    (apply gives_tame; [name_ok|apply show_coord_tame]).
Qed.

Lemma obj_attrs_g o : in_range o -> texts xchars (fun s => xchars s /\ plain s) o ->
  Forall2 gives (obj_attrs esc o) (obj_attrs raw (nrm_obj o)).
Proof.
  intros Hr (Hu & _ & _ & Ht). rewrite !obj_attrs_split. apply Forall2_app; [now apply before_g|].
  apply Forall2_app; [|apply after_g]. rewrite nrm_meta_eq. cbn [nrm_meta m_timestamp].
  destruct (m_timestamp (s_meta o)); cbn [opt_list opt_map to_iso_string] in *; constructor; [|constructor].
  split; [reflexivity|]. cbn [fst snd]. split; [name_ok|]. destruct Ht. now apply parses_raw.
Qed.

Lemma run_obj_g o s st ev : in_range o -> texts xchars (fun s => xchars s /\ plain s) o ->
  run (P (MText []) (s :: st) true ev) (obj_text o)
  = P (MText []) (s :: st) true (ev ++ EOther [10; 9] :: obj_events (nrm_obj o)).
Proof.
  intros Hr Ht. unfold obj_text, obj_events. rewrite nrm_type, nrm_short.
  destruct (run_head_g (s :: st) true ev [10; 9] (name_long (s_type o)) (obj_attrs esc o) (obj_attrs raw (nrm_obj o)))
    as (m & Hm & E).
  { repeat constructor. }
  { apply name_long_name. }
  { left. discriminate. }
  { apply obj_attrs_names. }
  { now apply obj_attrs_g. }
  set (rest := if short_form o then _ else _).
  replace ([10; 9] ++ lit "<" ++ name_long (s_type o) ++ attrs_text (obj_attrs esc o) ++ rest)
    with (([10; 9] ++ lit "<" ++ name_long (s_type o) ++ attrs_text (obj_attrs esc o)) ++ rest)
    by (now rewrite <- !app_assoc).
  rewrite run_app, E. unfold rest. destruct (short_form o).
  - rewrite (run_slash attr_ws _ _ _ _ _ _ Hm). cbn [flush]. now rewrite <- app_assoc.
  - rewrite run_app, (run_gt attr_ws _ _ _ _ _ _ Hm). rewrite run_app, children_g.
    2:{ destruct Ht as (A & B & C & D). repeat split; auto. now destruct (m_timestamp (s_meta o)). }
    rewrite run_end_tag; [|repeat constructor|apply name_long_name].
    cbn [flush]. now rewrite <- !app_assoc.
Qed.

(** ** A timestamp with markup in it *)

(** After the value of attribute [a] has come out as something other than [s], or the
    parser is lost: no event but the start tag that shows it. *)
Definition off (n : str) (l : list (str * str)) (a s : str) (ev : list event) (p : pst) : Prop :=
  let wrong l' := exists v more, l' = l ++ (a, v) :: more /\ v <> s in
  (p_evs p = ev /\
   match p_mode p with
   | MErr => True
   | MInTag n' l' _ | MAttrName n' l' _ | MAttrEq n' l' _ | MBeforeVal n' l' _ | MVal n' l' _ _ _ | MSlash n' l' => n' = n /\ wrong l'
   | MValRef n' l' _ _ _ ref => (n' = n /\ wrong l') \/ In 34 ref
   | _ => False
   end)
  \/ exists l' rest, wrong l' /\ p_evs p = ev ++ EStart n l' :: rest.

Lemma digits_quote b s : forall acc, b <= 16 -> In 34 s -> digits_of b acc s = None.
Proof.
  induction s as [|c s IH]; intros acc Hb H; [easy|]. cbn [digits_of]. destruct H as [->|H].
  - unfold digit_of. change ((48 <=? 34) && (34 <=? 57)) with false. change ((97 <=? 34) && (34 <=? 102)) with false.
    change ((65 <=? 34) && (34 <=? 70)) with false. cbn iota. replace (99 <? b) with false by lia. reflexivity.
  - destruct (digit_of b c); [|easy]. now apply IH.
Qed.

Lemma reference_quote r : In 34 r -> reference r = None.
Proof.
  intros H. unfold reference.
  assert (K : forall x, ~ In 34 x -> str_eqb r x = false).
  { intros x Hx. apply str_eqb_neq. intros ->. easy. }
  rewrite !K by (cbn; intuition discriminate).
  assert (D : (match r with
           | 35 :: 120 :: (_ :: _) as ds => digits_of 16 0 (skipn 2 r)
           | 35 :: (_ :: _) as ds => digits_of 10 0 (skipn 1 r)
           | _ => None
           end) = None); [|now rewrite D].
  clear K.
  repeat (match goal with |- (match ?x with _ => _ end) = None => destruct x end; try reflexivity);
    (apply digits_quote; [lia|]); cbn [skipn]; cbn [In] in H |- *; intuition discriminate.
Qed.

Lemma off_step n l a s ev p c : off n l a s ev p -> off n l a s ev (tstep attr_ws p c).
Proof.
  intros [[E H]|(l' & rest & W & E)].
  2:{ right. destruct (step_evs attr_ws p c) as (more & E'). exists l', (rest ++ more). split; [exact W|].
      rewrite E', E, <- app_assoc. reflexivity. }
  destruct p as [m st r e]. cbn [p_evs p_mode] in *. subst e. unfold tstep. cbn [p_mode p_stack p_rooted p_evs].
  destruct (negb (xml_char c)); [left; split; [reflexivity|exact I]|].
  assert (app_more : forall l' x, (exists v more, l' = l ++ (a, v) :: more /\ v <> s) ->
    exists v more, l' ++ [x] = l ++ (a, v) :: more /\ v <> s).
  { intros l' x (v & more & -> & D). exists v, (more ++ [x]). split; [now rewrite <- app_assoc|exact D]. }
  destruct m; try easy; unfold goto, open_element, empty_element; cbn [p_stack p_rooted p_evs];
    repeat match goal with |- off _ _ _ _ _ (if ?b then _ else _) => destruct b eqn:? end;
    try (left; cbn [p_evs p_mode]; split; [reflexivity|]; solve [exact I|exact H|destruct H; auto]);
    try (destruct H as [-> W]; right; cbn [p_evs]; eexists _, _; split; [exact W|reflexivity]).
  all: destruct H as [H|H].
  1:{ destruct (reference ref); left; (split; [reflexivity|]); cbn [p_mode]; easy. }
  1:{ rewrite reference_quote by exact H. left. split; [reflexivity|exact I]. }
  1:{ left; split; [reflexivity|]. cbn [p_mode]. left. exact H. }
  left; split; [reflexivity|]. cbn [p_mode]. right. apply in_or_app. now left.
Qed.

Lemma off_run n l a s ev t : forall p, off n l a s ev p -> off n l a s ev (run p t).
Proof. induction t as [|c t IH]; intros p H; [exact H|]. rewrite run_cons. now apply IH, off_step. Qed.

Lemma split_at (x : char) s : In x s -> exists s1 s2, s = s1 ++ x :: s2 /\ ~ In x s1.
Proof.
  induction s as [|c s IH]; intros H; [easy|]. destruct (Z.eq_dec c x) as [->|N].
  - exists [], s. easy.
  - destruct H as [->|H]; [easy|]. destruct (IH H) as (s1 & s2 & -> & K). exists (c :: s1), s2. split; [easy|].
    intros [->|Q]; easy.
Qed.

Lemma run_ref n l a st r ev v s : xchars s -> ~ In 59 s -> forall ref,
  run (P (MValRef n l a 34 v ref) st r ev) s = P (MValRef n l a 34 v (ref ++ s)) st r ev.
Proof.
  induction 1 as [|c s Hx _ IH]; intros Hn ref; [cbn; now rewrite app_nil_r|]. rewrite run_cons.
  replace (tstep attr_ws (P (MValRef n l a 34 v ref) st r ev) c) with (P (MValRef n l a 34 v (ref ++ [c])) st r ev).
  - rewrite IH by (intros Q; apply Hn; now right). now rewrite <- app_assoc.
  - unfold tstep. rewrite Hx. cbn [negb p_mode]. replace (c =? 59) with false; [reflexivity|].
    symmetry. apply Z.eqb_neq. intros ->. apply Hn. now left.
Qed.

(** A text with markup never comes out as a value of the same length. *)
Lemma run_marked n l a st r ev k : forall s v0 full, (length s <= k)%nat -> xchars s -> plainb s = false ->
  (length v0 + length s <= length full)%nat -> forall rest,
  off n l a full ev (run (P (MVal n l a 34 v0) st r ev) (s ++ 34 :: rest)).
Proof.
  induction k as [|k IH]; intros s v0 full Hk Hx Hp Hf rest; [destruct s; [discriminate|cbn in Hk; lia]|].
  assert (closed : forall v, (length v < length full)%nat ->
    off n l a full ev (if has_attr a l then P MErr st r ev else P (MInTag n (l ++ [(a, v)]) false) st r ev)).
  { intros v Hv. destruct (has_attr a l); left; (split; [reflexivity|]); cbn [p_mode]; [exact I|]. split; [reflexivity|].
    exists v, []. split; [reflexivity|]. intros ->. lia. }
  assert (close34 : forall v, tstep attr_ws (P (MVal n l a 34 v) st r ev) 34
    = if has_attr a l then P MErr st r ev else P (MInTag n (l ++ [(a, v)]) false) st r ev) by reflexivity.
  destruct s as [|c s]; [discriminate|]. inv Hx. cbn [length] in Hf, Hk. cbn [app]. rewrite run_cons.
  destruct (c =? 34) eqn:E1; [apply Z.eqb_eq in E1 as ->; apply off_run; rewrite close34; apply closed; lia|].
  destruct (c =? 60) eqn:E2; [apply Z.eqb_eq in E2 as ->; apply off_run; left; split; [reflexivity|exact I]|].
  destruct (c =? 38) eqn:E3.
  - apply Z.eqb_eq in E3 as ->.
    change (tstep attr_ws (P (MVal n l a 34 v0) st r ev) 38) with (P (MValRef n l a 34 v0 []) st r ev).
    destruct (in_dec Z.eq_dec 59 s) as [Hin|Hno].
    + destruct (split_at 59 s Hin) as (s1 & s2 & -> & Hs1). apply Forall_app in H2 as [X1 X2]. inv X2.
      rewrite app_length in Hf, Hk. cbn [length] in Hf, Hk.
      rewrite <- app_assoc, run_app, run_ref by easy. cbn [app]. rewrite run_cons.
      destruct (reference s1) as [x|] eqn:R.
      * replace (tstep attr_ws (P (MValRef n l a 34 v0 s1) st r ev) 59) with (P (MVal n l a 34 (v0 ++ [x])) st r ev)
          by (unfold tstep; cbn; now rewrite R).
        destruct (plainb s2) eqn:Q.
        -- rewrite run_app, parses_raw by (try easy; now apply plainb_iff). rewrite run_cons, close34. apply off_run, closed.
           unfold nrm. rewrite !app_length, map_length. cbn [length]. lia.
        -- apply IH; try easy; [lia|]. rewrite app_length. cbn [length]. lia.
      * replace (tstep attr_ws (P (MValRef n l a 34 v0 s1) st r ev) 59) with (P MErr st r ev)
          by (unfold tstep; cbn; now rewrite R).
        apply off_run. left. split; [reflexivity|exact I].
    + rewrite run_app, run_ref by easy. cbn [app]. rewrite run_cons. apply off_run. left.
      split; [reflexivity|]. cbn. right. apply in_or_app. right. now left.
  - replace (tstep attr_ws (P (MVal n l a 34 v0) st r ev) c) with (P (MVal n l a 34 (v0 ++ [attr_ws c])) st r ev)
      by (unfold tstep; rewrite H1; cbn [negb p_mode]; now rewrite E1, E3, E2).
    apply IH; try easy; [lia| |].
    + cbn [plainb forallb] in Hp. rewrite E1, E2, E3 in Hp. exact Hp.
    + rewrite app_length. cbn [length]. lia.
Qed.

(** ** Start tags have distinct attributes *)

Definition tidy (p : pst) : Prop :=
  Forall distinct_attrs (p_evs p) /\
  match p_mode p with
  | MInTag _ l _ | MAttrName _ l _ | MAttrEq _ l _ | MBeforeVal _ l _ | MVal _ l _ _ _ | MValRef _ l _ _ _ _ | MSlash _ l =>
      NoDup (map fst l)
  | _ => True
  end.

Lemma tidy_step p c : tidy p -> tidy (tstep attr_ws p c).
Proof.
  destruct p as [m st r ev]. intros [H1 H2]. cbn [p_evs p_mode] in H1, H2. unfold tstep. cbv zeta.
  cbn [p_mode p_stack p_rooted p_evs].
  destruct (negb (xml_char c)); [split; [exact H1|exact I]|].
  assert (O : forall e, Forall distinct_attrs (ev ++ flush e)).
  { intros e. apply Forall_app. split; [exact H1|]. destruct e; repeat constructor. }
  assert (O' : forall e, Forall distinct_attrs (ev ++ [EOther e])).
  { intros e. apply Forall_app. split; [exact H1|]. repeat constructor. }
  destruct m; unfold goto, open_element, empty_element, close_element; cbn [p_stack p_rooted p_evs] in *;
    repeat match goal with
    | |- tidy (if ?b then _ else _) => destruct b eqn:?
    | |- tidy (match ?x with _ => _ end) => destruct x
    end; (split; cbn [p_evs p_mode]; [|try exact I; try exact H2]); auto;
    try (apply Forall_app; split; [exact H1|]; repeat constructor; assumption).
  all: try (cbn; now constructor).
  rewrite map_app. cbn [map fst].
  match goal with E : has_attr _ _ = false |- _ => rename E into Ha end.
  rewrite <- (rev_involutive (_ ++ _)). apply NoDup_rev. rewrite rev_app_distr. cbn [rev app]. constructor.
  - rewrite <- in_rev. intros Hin. apply has_attr_in in Hin. congruence.
  - now apply NoDup_rev.
Qed.

Lemma tidy_run s : forall p, tidy p -> tidy (run p s).
Proof. induction s as [|c s IH]; intros p H; [exact H|]. rewrite run_cons. now apply IH, tidy_step. Qed.

(** ** What a reader finds *)

(** The items are events, and perhaps an error at the end. *)
Lemma titems_shape p : exists l e, titems p = map IEv (p_evs p ++ l) ++ e /\
  ((e = [] /\ exists buf, p_mode p = MText buf /\ l = flush buf ++ [EOther []]) \/ (e = [IErr] /\ l = [])).
Proof.
  unfold titems. destruct (p_mode p) eqn:E;
    try (exists [], [IErr]; rewrite app_nil_r; split; [reflexivity|right; easy]).
  destruct (p_stack p); [destruct (p_rooted p)|]; try (exists [], [IErr]; rewrite app_nil_r; split; [reflexivity|right; easy]).
  eexists _, []. split; [now rewrite app_nil_r|]. left. split; [reflexivity|]. now exists buf.
Qed.

Lemma pull_error l : forall push acc els r, xml_pull push acc (map IEv l ++ [IErr]) = Ret (els, r) ->
  exists l', r = map IEv l' ++ [IErr].
Proof.
  induction l as [|e l IH]; intros push acc els r; cbn [map app xml_pull]; [discriminate|].
  destruct (match e with EEnd n => obj_name n | _ => false end); [|apply IH].
  intros H. injection H as _ <-. now exists l.
Qed.

Lemma runs_error os : forall l r, Runs xml_next (map IEv l ++ [IErr]) os (Ret r) -> r <> [].
Proof.
  induction os as [|o os IH]; intros l r H; inversion H as [s s' E|s E|s a s1 l0 r' E H']; subst; unfold xml_next in E;
    destruct (xml_pull false [] (map IEv l ++ [IErr])) as [[els rest]|] eqn:Q; try discriminate; cbn [obind] in E;
    destruct (pull_error _ _ _ _ _ Q) as (l' & ->); injection E as E1 E2; subst.
  - now destruct l'.
  - exact (IH l' r H').
Qed.

Lemma pull_incl l e : e = [] \/ e = [IErr] -> forall push acc els r, xml_pull push acc (map IEv l ++ e) = Ret (els, r) ->
  exists b, els = acc ++ b /\ incl b l.
Proof.
  intros He. induction l as [|x l IH]; intros push acc els r; cbn [map app xml_pull].
  - destruct He as [-> | ->]; [|discriminate]. intros H. injection H as <- _. exists []. rewrite app_nil_r. split; [easy|intros ? []].
  - set (push' := match x with EStart n _ => obj_name n || push | _ => push end).
    destruct (match x with EEnd n => obj_name n | _ => false end).
    + intros H. injection H as <- _. destruct push'; [exists [x]|exists []]; (split; [now rewrite ?app_nil_r|]).
      * intros y [->|[]]. now left.
      * intros ? [].
    + intros H. apply IH in H as (b & -> & Hb). destruct push'.
      * exists (x :: b). split; [now rewrite <- app_assoc|]. intros y [->|Hy]; [now left|right; auto].
      * exists b. split; [easy|]. intros y Hy. right. auto.
Qed.

(** An element whose timestamp attribute is [v]. *)
Lemma next_timestamp pre n l l2 e v o rest : Forall quiet pre -> obj_name n = true -> e = [] \/ e = [IErr] ->
  Forall distinct_attrs (EStart n l :: l2) -> In (lit "timestamp", v) l ->
  xml_next (map IEv (pre ++ EStart n l :: l2) ++ e) = Ret (Some o, rest) -> m_timestamp (s_meta o) = Some (ISOString v).
Proof.
  intros Hp Hn He Hd Hv. unfold xml_next. rewrite map_app, <- app_assoc, pull_quiet by exact Hp. cbn [map app xml_pull].
  rewrite Hn. cbn [orb app].
  destruct (xml_pull true [EStart n l] (map IEv l2 ++ e)) as [[els r]|] eqn:Q; [|discriminate]. cbn [obind].
  intros H. injection H as H _. destruct (pull_incl _ _ He _ _ _ _ Q) as (b & -> & Hb). cbn [app] in H.
  inv Hd. cbn [distinct_attrs] in H2.
  rewrite obj_of_events_spec in H; [|constructor; [exact H2|]; apply Forall_forall; intros x Hx; rewrite Forall_forall in H3; auto|exact Hn].
  assert (At : attribute l "timestamp" = Some v) by (now apply attribute_in).
  unfold object_of in H. destruct (opt_bind (attribute l "id") parse_i64) as [id|]; [|discriminate]. cbn [opt_bind] in H.
  destruct (str_eqb n (lit "node")).
  { destruct (attribute l "lat"); [|discriminate]. destruct (attribute l "lon"); [|discriminate].
    injection H as <-. cbn [s_meta sn_meta meta_of m_timestamp]. now rewrite At. }
  destruct (str_eqb n (lit "way")); [injection H as <-; cbn [s_meta sw_meta meta_of m_timestamp]; now rewrite At|].
  destruct (str_eqb n (lit "relation")); [injection H as <-; cbn [s_meta sr_meta meta_of m_timestamp]; now rewrite At|discriminate].
Qed.

(** A node without position. *)
Lemma next_nowhere pre o rest : Forall quiet pre -> in_range o -> ~ has_position o ->
  xml_next (map IEv (pre ++ obj_events o) ++ rest) = Ret (None, rest).
Proof.
  intros Hpre Hr Hp. rewrite obj_events_eq.
  rewrite next_element; [|exact Hpre|apply obj_name_long|apply body_no_end|apply obj_name_long|].
  2:{ constructor; [|apply body_distinct]. apply obj_attrs_names. }
  f_equal. f_equal. destruct (obj_attribute o) as (E1 & _ & _ & _ & _ & _ & _ & El).
  destruct Hr as (Hid & _ & _ & _ & Hx). unfold object_of. rewrite E1. cbn [opt_bind]. rewrite parse_show_i64 by easy. cbn [opt_bind].
  destruct o as [n|w|r]; cbn [has_position] in Hp; [|easy|easy]. cbn [s_type name_long].
  change (str_eqb (lit "node") (lit "node")) with true. cbv iota. destruct El as [-> ->].
  destruct (sn_latlon n); [elim Hp; discriminate|]. reflexivity.
Qed.

(** What comes back the same. *)
Lemma same_texts o : texts xchars (fun s => xchars s /\ plain s) o -> as_read (nrm_obj o) = as_read o ->
  texts (carried attr_ws) (fun s => carried attr_ws s /\ plain s) o.
Proof.
  intros (H1 & H2 & H3 & H4) E.
  assert (Em : meta_as_read (nrm_meta (s_meta o)) = meta_as_read (s_meta o))
    by (apply (f_equal s_meta) in E; destruct o; exact E).
  assert (Et : nrm_tags (s_tags o) = s_tags o) by (apply (f_equal s_tags) in E; destruct o; exact E).
  assert (Er : map (fun m => (fst m, nrm (snd m))) (obj_members o) = obj_members o)
    by (apply (f_equal obj_members) in E; destruct o; exact E).
  unfold meta_as_read, nrm_meta in Em. cbn [m_id m_version m_deleted m_changeset m_timestamp m_uid m_user] in Em.
  injection Em as Ets Eu. repeat split.
  - destruct (m_user (s_meta o)); cbn in *; [|easy]. apply carried_nrm. split; [easy|]. now injection Eu.
  - clear - H2 Et Hws. unfold nrm_tags in Et. revert H2 Et. generalize (s_tags o). induction l as [|[k v] l IH]; intros H2 Et; [constructor|].
    inv H2. cbn in Et. injection Et as E1 E2 E3. constructor; [|now apply IH]. cbn [fst snd] in *. rewrite !carried_nrm. easy.
  - clear - H3 Er Hws. revert H3 Er. generalize (obj_members o). induction l as [|[k v] l IH]; intros H2 Et; [constructor|].
    inv H2. cbn in Et. injection Et as E1 E2. constructor; [|now apply IH]. cbn [fst snd] in *. rewrite carried_nrm. easy.
  - destruct (m_timestamp (s_meta o)); cbn in *; [|easy]. destruct H4 as [A B]. split; [|exact B]. apply carried_nrm. split; [easy|].
    now injection Ets.
Qed.

Lemma texts_nrm o : texts (carried attr_ws) (fun s => carried attr_ws s /\ plain s) o ->
  texts xchars (fun s => xchars s /\ plain s) o /\ as_read (nrm_obj o) = as_read o.
Proof.
  intros (H1 & H2 & H3 & H4). split.
  - repeat split.
    + destruct (m_user (s_meta o)); cbn in *; [|easy]. now apply carried_nrm in H1.
    + eapply Forall_impl; [|exact H2]. intros [k v] [A B]. apply carried_nrm in A, B. easy.
    + eapply Forall_impl; [|exact H3]. intros [k v] A. apply carried_nrm in A. easy.
    + destruct (m_timestamp (s_meta o)); cbn in *; [|easy]. destruct H4 as [A B]. apply carried_nrm in A. easy.
  - assert (Em : meta_as_read (nrm_meta (s_meta o)) = meta_as_read (s_meta o)).
    { unfold meta_as_read, nrm_meta. cbn [m_id m_version m_deleted m_changeset m_timestamp m_uid m_user]. f_equal.
      - destruct (m_timestamp (s_meta o)); cbn in *; [|easy]. destruct H4 as [A B]. apply carried_nrm in A as [_ ->]. easy.
      - destruct (m_user (s_meta o)); cbn in *; [|easy]. apply carried_nrm in H1 as [_ ->]. easy. }
    assert (Et : nrm_tags (s_tags o) = s_tags o).
    { clear - H2 Hws. unfold nrm_tags. induction H2 as [|[k v] l [A B] _ IH]; [easy|]. cbn [map fst snd] in *.
      apply carried_nrm in A as [_ ->]. apply carried_nrm in B as [_ ->]. now rewrite IH. }
    assert (Er : map (fun m => (fst m, nrm (snd m))) (obj_members o) = obj_members o).
    { clear - H3 Hws. induction H3 as [|[k v] l A _ IH]; [easy|]. cbn [map fst snd] in *.
      apply carried_nrm in A as [_ ->]. now rewrite IH. }
    destruct o; cbn [as_read nrm_obj s_meta s_tags obj_members sn_meta sn_tags sn_latlon sw_meta sw_tags sw_nodes
      sr_meta sr_tags sr_members] in *; rewrite Em, Et, ?Er; reflexivity.
Qed.

(** ** Reading *)

Lemma NoDup_app_remove_r {A} (l l' : list A) : NoDup (l ++ l') -> NoDup l.
Proof.
  induction l as [|a l IH]; intros H; [constructor|]. cbn in H. inv H. constructor; [|auto].
  intros K. apply H2. apply in_or_app. now left.
Qed.

Lemma titems_ext p s : exists its, titems (run p s) = map IEv (p_evs p) ++ its.
Proof.
  destruct (titems_shape (run p s)) as (l & e & E & _). destruct (run_evs attr_ws s p) as (l2 & E2).
  exists (map IEv (l2 ++ l) ++ e). rewrite E, E2. now rewrite <- app_assoc, map_app, <- app_assoc.
Qed.

Lemma exact_go tail os : Forall in_range os -> Forall (texts xchars xchars) os -> forall s st ev pre its,
  tidy (P (MText []) (s :: st) true ev) -> Forall quiet pre ->
  titems (run (P (MText []) (s :: st) true ev) (flat_map obj_text os ++ tail)) = map IEv ev ++ its ->
  Runs xml_next (map IEv pre ++ its) (map as_read os) (Ret []) -> Forall (comes_back attr_ws) os.
Proof.
  induction 1 as [|o os Hr _ IH]; intros Ht s st ev pre its Td Hpre Ei HR; [constructor|].
  inv Ht. rename H1 into Ho, H2 into Hos. cbn [flat_map] in Ei. rewrite <- app_assoc in Ei.
  assert (Q1 : Forall quiet (pre ++ [EOther [10; 9]])) by (apply Forall_app; split; [exact Hpre|]; repeat constructor).
  destruct (match m_timestamp (s_meta o) with Some t => plainb (to_iso_string t) | None => true end) eqn:Pl.
  - assert (Ho' : texts xchars (fun s => xchars s /\ plain s) o).
    { destruct Ho as (A & B & C & D). repeat split; auto. destruct (m_timestamp (s_meta o)); cbn in *; [|easy].
      split; [exact D|]. now apply plainb_iff. }
    rewrite run_app, run_obj_g in Ei by easy.
    destruct (titems_ext (P (MText []) (s :: st) true (ev ++ EOther [10; 9] :: obj_events (nrm_obj o))) (flat_map obj_text os ++ tail))
      as (its' & Ei'). cbn [p_evs] in Ei'.
    assert (Eits : its = map IEv (EOther [10; 9] :: obj_events (nrm_obj o)) ++ its').
    { rewrite Ei' in Ei. rewrite map_app, <- app_assoc in Ei. now apply app_inv_head in Ei. }
    subst its. inversion HR as [| |x a s1 l r E HR']; subst.
    replace (map IEv pre ++ map IEv (EOther [10; 9] :: obj_events (nrm_obj o)) ++ its')
      with (map IEv ((pre ++ [EOther [10; 9]]) ++ obj_events (nrm_obj o)) ++ its') in E
      by (rewrite <- app_assoc, map_app, <- app_assoc; reflexivity).
    destruct (match o with SNode n => match sn_latlon n with None => false | _ => true end | _ => true end) eqn:Hp.
    + assert (Hpos : has_position o) by (destruct o as [[m t [|]]| |]; cbn in *; easy).
      rewrite next_obj in E; [|exact Q1|now apply nrm_range|now apply nrm_position].
      injection E as E <-. constructor.
      * split; [exact Hpos|]. now apply same_texts.
      * apply (IH Hos s st (ev ++ EOther [10; 9] :: obj_events (nrm_obj o)) [] its'); auto.
        pose proof (tidy_run (obj_text o) _ Td) as T'. rewrite run_obj_g in T' by easy. exact T'.
    + rewrite next_nowhere in E; [discriminate|exact Q1|now apply nrm_range|].
      rewrite nrm_position. intros K. destruct o as [[m t [|]]| |]; cbn in *; try discriminate. now apply K.
  - exfalso. destruct (m_timestamp (s_meta o)) as [t|] eqn:Ets; [|discriminate].
    assert (D : xchars (to_iso_string t)) by (destruct Ho as (_ & _ & _ & D); now rewrite Ets in D).
    destruct (run_head_g (s :: st) true ev [10; 9] (name_long (s_type o)) (attrs_before esc o) (attrs_before raw (nrm_obj o)))
      as (m & Hm & E).
    { repeat constructor. }
    { apply name_long_name. }
    { left. discriminate. }
    { pose proof (obj_attrs_names (nrm_obj o)) as N. rewrite obj_attrs_split, map_app in N. now apply NoDup_app_remove_r in N. }
    { apply before_g; [exact Hr|]. now destruct Ho. }
    set (rest := if short_form o then lit " />" else lit ">" ++ children_text o ++ [10; 9] ++ lit "</" ++ name_long (s_type o) ++ lit ">").
    assert (Eo : obj_text o = ([10; 9] ++ lit "<" ++ name_long (s_type o) ++ attrs_text (attrs_before esc o))
      ++ (lit " " ++ lit "timestamp" ++ lit "=" ++ [34]) ++ (to_iso_string t ++ 34 :: attrs_text (attrs_after o) ++ rest)).
    { unfold obj_text. fold rest. rewrite obj_attrs_split, Ets. unfold attrs_text. rewrite !flat_map_app. cbn [opt_list flat_map].
      unfold attr_text at 2. cbn [fst snd]. rewrite <- !app_assoc. reflexivity. }
    assert (Et : exists X, obj_text o ++ flat_map obj_text os ++ tail
      = ([10; 9] ++ lit "<" ++ name_long (s_type o) ++ attrs_text (attrs_before esc o))
      ++ (lit " " ++ lit "timestamp" ++ lit "=" ++ [34]) ++ (to_iso_string t ++ 34 :: X)).
    { exists ((attrs_text (attrs_after o) ++ rest) ++ flat_map obj_text os ++ tail). rewrite Eo.
      repeat (rewrite <- app_assoc; f_equal). }
    destruct Et as (X & Et). rewrite Et in Ei.
    rewrite run_app, E, run_app, (run_to_value (name_long (s_type o)) (attrs_before raw (nrm_obj o))) in Ei; [|exact Hm|name_ok].
    set (p := run _ _) in Ei.
    assert (Of : off (name_long (s_type o)) (attrs_before raw (nrm_obj o)) (lit "timestamp") (to_iso_string t) (ev ++ [EOther [10; 9]]) p).
    { apply run_marked with (k := length (to_iso_string t)); auto. }
    assert (Tp : tidy p).
    { unfold p. apply tidy_run. split; [|cbn]. 
      - cbn [p_evs]. apply Forall_app. split; [apply Td|]. repeat constructor.
      - pose proof (obj_attrs_names (nrm_obj o)) as N. rewrite obj_attrs_split, map_app in N. now apply NoDup_app_remove_r in N. }
    clearbody p. destruct Of as [[Ev Md]|(l' & more & (v & m' & El & Dv) & Ev)].
    + assert (Ep : titems p = map IEv (ev ++ [EOther [10; 9]]) ++ [IErr]).
      { rewrite <- Ev. unfold titems. now destruct (p_mode p). }
      rewrite Ep, map_app, <- app_assoc in Ei. apply app_inv_head in Ei. subst its.
      apply (runs_error (map as_read (o :: os)) (pre ++ [EOther [10; 9]]) []); [|reflexivity].
      rewrite map_app, <- app_assoc. exact HR.
    + destruct (titems_shape p) as (l2 & e & Ep & He).
      rewrite Ep, Ev, <- !app_assoc, map_app, <- app_assoc in Ei. apply app_inv_head in Ei. subst its.
      inversion HR as [| |x a s1 l r En HR']; subst x a l r.
      rewrite app_assoc, <- map_app in En. cbn [app] in En.
      replace (pre ++ EOther [10; 9] :: EStart (name_long (s_type o)) l' :: more ++ l2)
        with ((pre ++ [EOther [10; 9]]) ++ EStart (name_long (s_type o)) l' :: more ++ l2) in En
        by (now rewrite <- app_assoc).
      apply next_timestamp with (v := v) in En; [|exact Q1|apply obj_name_long|destruct He as [[-> _]|[-> _]]; auto| |].
      * assert (m_timestamp (s_meta (as_read o)) = Some (ISOString (to_iso_string t))) as Q
          by (destruct o; cbn in *; rewrite Ets; reflexivity).
        rewrite Q in En. injection En as En. congruence.
      * destruct Tp as [Tp _]. rewrite Ev in Tp. apply Forall_app in Tp as [_ Tp]. inv Tp. constructor; [assumption|].
        apply Forall_app. split; [assumption|]. destruct He as [(_ & buf & _ & ->)|[_ ->]]; [|constructor].
        apply Forall_app. split; [destruct buf|]; repeat constructor.
      * rewrite El. apply in_or_app. right. now left.
Qed.
End Exact.
