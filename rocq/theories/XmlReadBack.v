(** Reading back what the writers wrote. *)
From Coq Require Import String ZArith List Bool Lia Permutation.
From Coq Require Import ZifyBool ZifyNat.
From Verif Require Import Base SpecNum Ints SpecCal Timestamp TimestampFacts Obj Coord CoordFacts Utf8
  SpecXml XmlToken XmlRead SpecXmlRead XmlReadFacts SpecIter XmlRound.
Import ListNotations.
Open Scope Z_scope.

(** ** Finding an element *)

Lemma osc_pull_eq push acc l : osc_pull push acc l = xml_pull push acc l.
Proof. revert push acc. induction l as [|[e|] l IH]; intros; cbn; [easy| |easy]. now rewrite IH. Qed.

Lemma osc_next_eq l : osc_next l = xml_next l.
Proof. unfold osc_next, xml_next. now rewrite osc_pull_eq. Qed.

Definition starts_obj (e : event) : bool := match e with EStart n _ => obj_name n | _ => false end.
Definition ends_obj (e : event) : bool := match e with EEnd n => obj_name n | _ => false end.

Lemma pull_quiet acc pre l : Forall (fun e => starts_obj e = false /\ ends_obj e = false) pre ->
  xml_pull false acc (map IEv pre ++ l) = xml_pull false acc l.
Proof.
  induction 1 as [|e pre [H1 H2] _ IH]; [easy|]. cbn [map app xml_pull].
  change (match e with EEnd n => obj_name n | _ => false end) with (ends_obj e). rewrite H2.
  destruct e as [n a| |]; [|exact IH|exact IH]. cbn in H1. rewrite H1. exact IH.
Qed.

Lemma pull_body acc body l : Forall (fun e => ends_obj e = false) body ->
  xml_pull true acc (map IEv body ++ l) = xml_pull true (acc ++ body) l.
Proof.
  intros H. revert acc. induction H as [|e body H _ IH]; intros acc; cbn [map app xml_pull].
  - now rewrite app_nil_r.
  - change (match e with EEnd n => obj_name n | _ => false end) with (ends_obj e). rewrite H.
    replace (match e with EStart n _ => obj_name n || true | _ => true end) with true
      by (destruct e; [now rewrite orb_true_r| |]; easy).
    rewrite IH. now rewrite <- app_assoc.
Qed.

Lemma pull_element pre n a body n' rest :
  Forall (fun e => starts_obj e = false /\ ends_obj e = false) pre -> obj_name n = true ->
  Forall (fun e => ends_obj e = false) body -> obj_name n' = true ->
  xml_pull false [] (map IEv (pre ++ EStart n a :: body ++ [EEnd n']) ++ rest)
  = Ret (EStart n a :: body ++ [EEnd n'], rest).
Proof.
  intros Hp Hn Hb Hn'. rewrite map_app, <- app_assoc, pull_quiet by easy.
  cbn [map app xml_pull]. rewrite Hn. cbn [orb app].
  rewrite map_app, <- app_assoc, pull_body by easy. cbn [map app xml_pull].
  rewrite Hn'. reflexivity.
Qed.

Theorem next_element pre n a body n' rest :
  Forall (fun e => starts_obj e = false /\ ends_obj e = false) pre -> obj_name n = true ->
  Forall (fun e => ends_obj e = false) body -> obj_name n' = true ->
  Forall distinct_attrs (EStart n a :: body) ->
  xml_next (map IEv (pre ++ EStart n a :: body ++ [EEnd n']) ++ rest)
  = Ret (object_of n a body, rest).
Proof.
  intros Hp Hn Hb Hn' Hd. unfold xml_next. rewrite pull_element by easy. cbn [obind].
  rewrite obj_of_events_spec.
  - do 2 f_equal. unfold object_of. rewrite !filter_map_app. cbn [filter_map tag_of ref_of member_of].
    now rewrite !app_nil_r.
  - inv Hd. constructor; [easy|]. apply Forall_app. split; [easy|]. repeat constructor.
  - exact Hn.
Qed.

Lemma next_end pre :
  Forall (fun e => starts_obj e = false /\ ends_obj e = false) pre ->
  xml_next (map IEv pre) = Ret (None, []).
Proof.
  intros H. unfold xml_next. rewrite <- (app_nil_r (map IEv pre)), pull_quiet by easy. reflexivity.
Qed.

Lemma next_error pre :
  Forall (fun e => starts_obj e = false /\ ends_obj e = false) pre ->
  xml_next (map IEv pre ++ [IErr]) = Panic.
Proof. intros H. unfold xml_next. rewrite pull_quiet by easy. reflexivity. Qed.

(** ** The element of an object *)

Lemma filter_map_child {A B} (f : event -> option B) (n : str) (g : A -> list (str * str)) l :
  (forall s, f (EOther s) = None) -> (forall s, f (EEnd s) = None) ->
  filter_map f (flat_map (fun x => child_events n (g x)) l)
  = filter_map (fun x => f (EStart n (g x))) l.
Proof.
  intros H1 H2. induction l as [|x l IH]; [easy|]. cbn [flat_map].
  rewrite filter_map_app, IH. cbn [child_events filter_map]. rewrite H1, H2.
  destruct (f (EStart n (g x))); reflexivity.
Qed.

Lemma filter_map_none {A B} (f : A -> option B) l : (forall a, f a = None) -> filter_map f l = [].
Proof. intros H. induction l; cbn; [easy|]. now rewrite H. Qed.

Lemma filter_map_id {A B} (f : A -> option B) (g : A -> B) l : (forall a, In a l -> f a = Some (g a)) ->
  filter_map f l = map g l.
Proof.
  induction l as [|a l IH]; intros H; cbn; [easy|]. rewrite H by (now left). f_equal.
  apply IH. intros. apply H. now right.
Qed.

Lemma obj_name_long t : obj_name (name_long t) = true.
Proof. now destruct t. Qed.

Definition body_of (o : sobj) : list event :=
  if short_form o then [] else body_events o ++ [EOther [10; 9]].

Lemma obj_events_eq o :
  obj_events o = EStart (name_long (s_type o)) (obj_attrs raw o) :: body_of o ++ [EEnd (name_long (s_type o))].
Proof. unfold obj_events, body_of. destruct (short_form o); [easy|]. now rewrite <- app_assoc. Qed.

Lemma body_tags o : filter_map tag_of (body_of o) = s_tags o.
Proof.
  unfold body_of. destruct (short_form o) eqn:E.
  - destruct o as [[m [|t ts] p]| |]; easy.
  - unfold body_events. rewrite !filter_map_app. rewrite !filter_map_child by easy.
    rewrite (filter_map_none (fun x => tag_of (EStart (lit "nd") (nd_attrs x)))) by easy.
    rewrite (filter_map_none (fun x => tag_of (EStart (lit "member") (member_attrs raw x)))) by easy.
    rewrite (filter_map_id _ (fun t => t)) by (intros [k v] _; reflexivity).
    cbn. now rewrite map_id, !app_nil_r.
Qed.

Lemma body_refs o : Forall in_i64 (obj_nds o) -> filter_map ref_of (body_of o) = obj_nds o.
Proof.
  intros H. unfold body_of. destruct (short_form o) eqn:E.
  - destruct o; easy.
  - unfold body_events. rewrite !filter_map_app. rewrite !filter_map_child by easy.
    rewrite (filter_map_none (fun x => ref_of (EStart (lit "tag") (tag_attrs raw x)))) by easy.
    rewrite (filter_map_none (fun x => ref_of (EStart (lit "member") (member_attrs raw x)))) by easy.
    rewrite (filter_map_id _ (fun t => t)).
    + cbn. now rewrite map_id, !app_nil_r.
    + intros i Hi. rewrite Forall_forall in H. cbn. now rewrite parse_show_i64 by auto.
Qed.

Lemma body_members o : Forall (fun m : member => in_i64 (snd (fst m))) (obj_members o) ->
  filter_map member_of (body_of o) = obj_members o.
Proof.
  intros H. unfold body_of. destruct (short_form o) eqn:E.
  - destruct o; easy.
  - unfold body_events. rewrite !filter_map_app. rewrite !filter_map_child by easy.
    rewrite (filter_map_none (fun x => member_of (EStart (lit "tag") (tag_attrs raw x)))) by easy.
    rewrite (filter_map_none (fun x => member_of (EStart (lit "nd") (nd_attrs x)))) by easy.
    rewrite (filter_map_id _ (fun t => t)).
    + cbn. now rewrite map_id, !app_nil_r.
    + intros [[t i] role] Hi. rewrite Forall_forall in H. specialize (H _ Hi). cbn [fst snd] in H.
      destruct t; cbn; now rewrite parse_show_i64 by auto.
Qed.

Lemma obj_attribute o :
  let a := attribute (obj_attrs raw o) in let m := s_meta o in
  a "id"%string = Some (show_int (m_id m))
  /\ a "version"%string = opt_map show_uint (m_version m)
  /\ a "visible"%string = Some (if m_deleted m then lit "false" else lit "true")
  /\ a "changeset"%string = opt_map show_uint (m_changeset m)
  /\ a "timestamp"%string = opt_map to_iso_string (m_timestamp m)
  /\ a "uid"%string = opt_map show_uint (m_uid m)
  /\ a "user"%string = m_user m
  /\ match o with
     | SNode n => a "lat"%string = opt_map (fun p => show_coord (fst p)) (sn_latlon n)
                  /\ a "lon"%string = opt_map (fun p => show_coord (snd p)) (sn_latlon n)
     | _ => True
     end.
Proof.
  cbv zeta. unfold obj_attrs, raw.
  generalize (if m_deleted (s_meta o) then lit "false" else lit "true").
  intros vis.
  generalize (show_int (m_id (s_meta o))). intros id.
  destruct o as [n|w|r]; cbn [s_meta].
  - destruct n as [m ts p]; cbn [sn_meta sn_latlon].
    destruct (m_version m), (m_user m), (m_uid m), (m_changeset m), (m_timestamp m), p as [[la lo]|];
      cbn -[show_uint show_int show_coord to_iso_string]; repeat split; reflexivity.
  - destruct (m_version (sw_meta w)), (m_user (sw_meta w)), (m_uid (sw_meta w)), (m_changeset (sw_meta w)),
      (m_timestamp (sw_meta w));
      cbn -[show_uint show_int show_coord to_iso_string]; repeat split; reflexivity.
  - destruct (m_version (sr_meta r)), (m_user (sr_meta r)), (m_uid (sr_meta r)), (m_changeset (sr_meta r)),
      (m_timestamp (sr_meta r));
      cbn -[show_uint show_int show_coord to_iso_string]; repeat split; reflexivity.
Qed.

Lemma obj_meta o : in_range o -> meta_of (attribute (obj_attrs raw o)) (m_id (s_meta o)) = meta_as_read (s_meta o).
Proof.
  intros (_ & Hv & Hc & Hu & _). destruct (obj_attribute o) as (_ & E2 & E3 & E4 & E5 & E6 & E7 & _).
  unfold meta_of, meta_as_read. rewrite E2, E3, E4, E5, E6, E7.
  f_equal.
  - destruct (m_version (s_meta o)); cbn in *; [now apply parse_show_u32|easy].
  - now destruct (m_deleted (s_meta o)).
  - destruct (m_changeset (s_meta o)); cbn in *; [now apply parse_show_u32|easy].
  - now destruct (m_timestamp (s_meta o)).
  - destruct (m_uid (s_meta o)); cbn in *; [now apply parse_show_u32|easy].
Qed.

Lemma object_of_obj o : in_range o -> has_position o ->
  object_of (name_long (s_type o)) (obj_attrs raw o) (body_of o) = Some (as_read o).
Proof.
  intros Hr Hp. pose proof (obj_meta o Hr) as Em. pose proof (body_tags o) as Et.
  destruct (obj_attribute o) as (E1 & _ & _ & _ & _ & _ & _ & El).
  destruct Hr as (Hid & _ & _ & _ & Hx).
  unfold object_of. rewrite E1. cbn [opt_bind]. rewrite parse_show_i64 by easy. cbn [opt_bind].
  rewrite Em, Et.
  destruct o as [n|w|r]; cbn [s_type name_long].
  - change (str_eqb (lit "node") (lit "node")) with true. cbv iota.
    destruct El as [-> ->]. cbn in Hp, Hx. destruct n as [m ts [[la lo]|]]; [|easy].
    cbn [sn_latlon opt_map fst snd as_read sn_meta sn_tags s_tags s_meta] in *.
    unfold position_of. cbn in Hx. destruct Hx. now rewrite !coord_text_roundtrip.
  - change (str_eqb (lit "way") (lit "node")) with false.
    change (str_eqb (lit "way") (lit "way")) with true. cbv iota.
    rewrite body_refs by exact Hx. reflexivity.
  - change (str_eqb (lit "relation") (lit "node")) with false.
    change (str_eqb (lit "relation") (lit "way")) with false.
    change (str_eqb (lit "relation") (lit "relation")) with true. cbv iota.
    rewrite body_members by exact Hx. reflexivity.
Qed.

Lemma child_no_end {A} n g (l : list A) : obj_name n = false ->
  Forall (fun e => ends_obj e = false) (flat_map (fun x => child_events n (g x)) l).
Proof.
  intros H. induction l; cbn [flat_map]; [constructor|]. apply Forall_app. split; [|easy].
  repeat constructor. exact H.
Qed.

Lemma body_no_end o : Forall (fun e => ends_obj e = false) (body_of o).
Proof.
  unfold body_of. destruct (short_form o); [constructor|]. unfold body_events.
  repeat (apply Forall_app; split); try (now apply child_no_end). repeat constructor.
Qed.

Lemma child_distinct {A} n g (l : list A) : (forall a, NoDup (map fst (g a))) ->
  Forall distinct_attrs (flat_map (fun x => child_events n (g x)) l).
Proof.
  intros H. induction l; cbn [flat_map]; [constructor|]. apply Forall_app. split; [|easy].
  repeat constructor. cbn. apply H.
Qed.

Lemma body_distinct o : Forall distinct_attrs (body_of o).
Proof.
  unfold body_of. destruct (short_form o); [constructor|]. unfold body_events.
  repeat (apply Forall_app; split); try apply child_distinct.
  - intros i. repeat constructor; easy.
  - intros [[t i] role]. repeat constructor; cbn; intuition discriminate.
  - intros [k v]. repeat constructor; cbn; intuition discriminate.
  - repeat constructor.
Qed.

Definition quiet (e : event) : Prop := starts_obj e = false /\ ends_obj e = false.

Lemma next_obj pre o rest : Forall quiet pre -> in_range o -> has_position o ->
  xml_next (map IEv (pre ++ obj_events o) ++ rest) = Ret (Some (as_read o), rest).
Proof.
  intros Hpre Hr Hp. rewrite obj_events_eq.
  rewrite next_element; [|exact Hpre|apply obj_name_long|apply body_no_end|apply obj_name_long|].
  - now rewrite object_of_obj.
  - constructor; [|apply body_distinct]. apply obj_attrs_names.
Qed.

(** ** Whole inputs *)

Lemma runs_objs os : Forall in_range os -> Forall has_position os -> forall pre tail l r, Forall quiet pre ->
  (forall pre', Forall quiet pre' -> Runs xml_next (map IEv pre' ++ tail) l r) ->
  Runs xml_next (map IEv (pre ++ objs_events os) ++ tail) (map as_read os ++ l) r.
Proof.
  induction 1 as [|o os Hr _ IH]; intros Hp pre tail l r Hpre Ht.
  - cbn. rewrite app_nil_r. now apply Ht.
  - inv Hp. cbn [objs_events flat_map map app].
    eapply Runs_step.
    + replace (pre ++ EOther [10; 9] :: obj_events o ++ flat_map (fun o => EOther [10; 9] :: obj_events o) os)
        with (((pre ++ [EOther [10; 9]]) ++ obj_events o) ++ objs_events os)
        by (rewrite <- !app_assoc; reflexivity).
      rewrite map_app, <- app_assoc. apply next_obj; auto.
      apply Forall_app. split; [easy|]. repeat constructor.
    + specialize (IH H2 [] tail l r (Forall_nil _) Ht). exact IH.
Qed.

Section ReadBack.
Variable attr_ws : char -> char.
Hypothesis Hws : normalises attr_ws.

Lemma xml_object_range os : Forall (xml_object attr_ws) os -> Forall in_range os /\ Forall has_position os.
Proof.
  intros H. split; eapply Forall_impl; try exact H; intros o (H1 & H2 & H3 & _); easy.
Qed.

Lemma runs_items pre os post : Forall quiet pre -> Forall quiet post -> Forall (xml_object attr_ws) os ->
  Runs xml_next (map IEv (pre ++ objs_events os ++ post)) (map as_read os) (Ret []).
Proof.
  intros H1 H2 H3. destruct (xml_object_range os H3) as [Hr Hp].
  rewrite app_assoc, map_app. rewrite <- (app_nil_r (map as_read os)).
  apply runs_objs; auto. intros pre' H'. apply Runs_end.
  rewrite <- map_app. apply next_end. now apply Forall_app.
Qed.

Lemma runs_items_err pre os post : Forall quiet pre -> Forall quiet post -> Forall (xml_object attr_ws) os ->
  Runs xml_next (map IEv (pre ++ objs_events os ++ post) ++ [IErr]) (map as_read os) Panic.
Proof.
  intros H1 H2 H3. destruct (xml_object_range os H3) as [Hr Hp].
  rewrite app_assoc, map_app. rewrite <- (app_nil_r (map as_read os)).
  rewrite <- app_assoc. apply runs_objs; auto. intros pre' H'. apply Runs_panic.
  rewrite app_assoc, <- map_app. apply next_error. now apply Forall_app.
Qed.

Lemma trun_err s st r ev : p_mode (trun attr_ws (P MErr st r ev) s) = MErr.
Proof.
  induction s as [|c s IH]; [easy|]. cbn [trun fold_left]. unfold tstep at 2. cbn [p_mode].
  destruct (negb (xml_char c)); exact IH.
Qed.

(** Text the parser gets through is made of characters. *)
Lemma trun_valid s : forall p, p_mode (trun attr_ws p s) <> MErr -> valid_str s.
Proof.
  induction s as [|c s IH]; intros p H; [constructor|]. cbn [trun fold_left] in H.
  constructor.
  - unfold tstep in H at 2. destruct (xml_char c) eqn:E.
    + unfold xml_char in E. unfold scalar. lia.
    + cbn [negb] in H. unfold goto in H. elim H. apply trun_err.
  - exact (IH _ H).
Qed.

Lemma titems_no_err p s : titems (trun attr_ws p s) <> map IEv (p_evs (trun attr_ws p s)) ++ [IErr] ->
  valid_str s.
Proof.
  intros H. apply trun_valid with p. intros E. apply H. unfold titems. now rewrite E.
Qed.

Lemma map_IEv_noerr l l' : map IEv l <> map IEv l' ++ [IErr].
Proof.
  intros H. assert (Hin : In IErr (map IEv l)) by (rewrite H; apply in_or_app; right; now left).
  apply in_map_iff in Hin as (e & He & _). discriminate.
Qed.

Lemma xml_document_valid hs os : good_headers attr_ws hs -> Forall (xml_object attr_ws) os ->
  valid_str (xml_document hs os).
Proof.
  intros H1 H2. apply titems_no_err with tstart. rewrite xml_document_items by easy. apply map_IEv_noerr.
Qed.

Lemma osc_document_valid os : Forall (xml_object attr_ws) os -> valid_str (osc_document os).
Proof.
  intros H2. apply titems_no_err with tstart. rewrite osc_document_items by easy. apply map_IEv_noerr.
Qed.

Theorem xml_items_document hs os : good_headers attr_ws hs -> Forall (xml_object attr_ws) os ->
  xml_items attr_ws (utf8 (xml_document hs os))
  = map IEv (xml_pre hs ++ objs_events os ++ [EOther [10]; EEnd (lit "osm"); EOther []]).
Proof.
  intros H1 H2. unfold xml_items. rewrite utf8_decode_encode by (now apply xml_document_valid).
  now apply xml_document_items.
Qed.

Theorem osc_items_document os : Forall (xml_object attr_ws) os ->
  xml_items attr_ws (utf8 (osc_document os))
  = map IEv (osc_pre ++ objs_events os ++
      [EOther [10]; EEnd (lit "modify"); EOther [10]; EEnd (lit "osmChange"); EOther []]).
Proof.
  intros H2. unfold xml_items. rewrite utf8_decode_encode by (now apply osc_document_valid).
  now apply osc_document_items.
Qed.

(** A second root end tag is an error. *)
Lemma trun_err_state s st r ev : trun attr_ws (P MErr st r ev) s = P MErr st r ev.
Proof.
  induction s as [|c s IH]; [easy|]. cbn [trun fold_left]. unfold tstep at 2. cbn [p_mode].
  destruct (negb (xml_char c)); exact IH.
Qed.

Lemma xml_closing_valid : valid_str xml_closing.
Proof. unfold valid_str. repeat constructor; unfold scalar; cbn; lia. Qed.

Lemma closings_valid n : valid_str (concat (repeat xml_closing n)).
Proof. induction n; cbn [repeat concat]; [constructor|]. apply Forall_app. split; [apply xml_closing_valid|easy]. Qed.

(** After the document, [n] more root end tags. *)
Theorem xml_items_reclosed hs os n : good_headers attr_ws hs -> Forall (xml_object attr_ws) os ->
  xml_items attr_ws (utf8 (xml_document hs os ++ concat (repeat xml_closing (S n))))
  = map IEv (xml_pre hs ++ objs_events os ++ [EOther [10]; EEnd (lit "osm"); EOther [10]]) ++ [IErr].
Proof.
  intros H1 H2. unfold xml_items. rewrite utf8_decode_encode.
  2:{ apply Forall_app. split; [now apply xml_document_valid|apply closings_valid]. }
  rewrite run_app. cbn [repeat concat]. rewrite run_app.
  unfold xml_document. rewrite !run_app, run_xml_opening, run_objs by easy.
  assert (E1 : forall e, trun attr_ws (P (MText []) [lit "osm"] true e) xml_closing
    = P (MText []) [] true (e ++ [EOther [10]; EEnd (lit "osm")])).
  { intros e. unfold xml_closing. change (lit "</osm>") with (lit "</" ++ lit "osm" ++ lit ">").
    rewrite run_end_tag; [|repeat constructor|apply xml_name_lit; reflexivity]. reflexivity. }
  assert (E2 : forall e, trun attr_ws (P (MText []) [] true e) xml_closing = P MErr [] true (e ++ [EOther [10]]))
    by reflexivity.
  rewrite E1, E2.
  rewrite trun_err_state. unfold titems. cbn [p_mode p_evs flush].
  unfold xml_pre, objs_events. f_equal. f_equal. rewrite <- !app_assoc. reflexivity.
Qed.

End ReadBack.
