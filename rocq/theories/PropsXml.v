(** C27-C31, C59, C60: reading OSM XML and OsmChange files. *)
From Coq Require Import String ZArith List Bool Lia Permutation.
From Coq Require Import ZifyBool ZifyNat.
From Verif Require Import Base Ints SpecCal Timestamp TimestampFacts PropsTime Obj PropsObj Coord CoordFacts Utf8
  XmlWrite SpecXml SpecWriter XmlWriteFacts XmlToken XmlRead SpecXmlRead XmlReadFacts SpecIter XmlRound
  XmlReadBack XmlTrunc PropsWriter.
Import ListNotations.
Open Scope Z_scope.

(** ** C27 *)

(** Timestamps the text form keeps: ISO texts, and instants from 1970 to 2038. *)
Definition kept_timestamp (t : timestamp) : Prop :=
  match t with ISOString _ => True | EpochNumber t => 0 <= t < 2^31 end.

Lemma kept_eqb t : kept_timestamp t -> timestamp_eqb (ISOString (to_iso_string t)) t = true.
Proof.
  destruct t as [s|t]; intros H; cbn [timestamp_eqb].
  - apply str_eqb_refl.
  - destruct (C08_epoch_roundtrip t H) as (_ & E & _). rewrite E. apply Z.eqb_refl.
Qed.

(** What is read back differs at most in the form of the timestamp, and compares
    equal to what was written. *)
Theorem C27_as_read_equal : forall o,
  s_type (as_read o) = s_type o /\ s_tags (as_read o) = s_tags o
  /\ obj_nds (as_read o) = obj_nds o /\ obj_members (as_read o) = obj_members o
  /\ opt_map sn_latlon (into_node (as_read o)) = opt_map sn_latlon (into_node o)
  /\ m_id (s_meta (as_read o)) = m_id (s_meta o)
  /\ m_version (s_meta (as_read o)) = m_version (s_meta o)
  /\ m_deleted (s_meta (as_read o)) = m_deleted (s_meta o)
  /\ m_changeset (s_meta (as_read o)) = m_changeset (s_meta o)
  /\ m_uid (s_meta (as_read o)) = m_uid (s_meta o)
  /\ m_user (s_meta (as_read o)) = m_user (s_meta o)
  /\ opt_map to_iso_string (m_timestamp (s_meta (as_read o))) = opt_map to_iso_string (m_timestamp (s_meta o))
  /\ (opt_prop kept_timestamp (m_timestamp (s_meta o)) -> s_eqb (as_read o) o = true).
Proof.
  assert (M : forall m, opt_prop kept_timestamp (m_timestamp m) -> meta_eqb (meta_as_read m) m = true).
  { intros m H. unfold meta_eqb, meta_as_read. cbn [m_id m_version m_deleted m_changeset m_timestamp m_uid m_user].
    rewrite Z.eqb_refl, eqb_reflx, !(opt_eqb_refl Z.eqb Z.eqb_refl), (opt_eqb_refl str_eqb str_eqb_refl).
    destruct (m_timestamp m) as [t|]; cbn [opt_map opt_eqb]; [|easy].
    cbn [opt_prop] in H. now rewrite kept_eqb. }
  assert (T : forall m, opt_map to_iso_string (m_timestamp (meta_as_read m)) = opt_map to_iso_string (m_timestamp m))
    by (intros m; unfold meta_as_read; cbn; now destruct (m_timestamp m)).
  intros [n|w|r]; repeat split; try apply T; intros H; cbn [as_read s_eqb sn_meta sn_tags sn_latlon sw_meta
    sw_tags sw_nodes sr_meta sr_tags sr_members]; rewrite M, (list_eqb_refl tag_eqb tag_eqb_refl); try exact H; cbn.
  - apply opt_eqb_refl, latlon_eqb_refl.
  - apply list_eqb_refl, Z.eqb_refl.
  - apply list_eqb_refl, member_eqb_refl.
Qed.
Print Assumptions C27_as_read_equal.

(** Header calls that keep the root tag well-formed. *)
Definition good_header_calls (attr_ws : char -> char) (l : list (str * str)) : Prop :=
  Forall (fun h => xml_name (fst h) /\ fst h <> lit "version" /\ fst h <> lit "generator"
                   /\ carried attr_ws (snd h)) l.

Lemma last_value_in k l : forall acc v,
  fold_left (fun acc (h : str * str) => if str_eqb (fst h) k then Some (snd h) else acc) l acc = Some v ->
  acc = Some v \/ In (k, v) l.
Proof.
  induction l as [|[k' v'] l IH]; intros acc v H; cbn in H; [now left|].
  apply IH in H as [H|H]; [|right; now right].
  destruct (str_eqb k' k) eqn:E; [|now left]. apply str_eqb_eq in E. injection H as ->. subst.
  right. now left.
Qed.

Lemma header_map_good attr_ws hs l : header_map hs l -> good_header_calls attr_ws l -> good_headers attr_ws hs.
Proof.
  intros [H1 H2] G. unfold good_header_calls in G. rewrite Forall_forall in G.
  assert (I : forall k v, In (k, v) hs -> In (k, v) l).
  { intros k v H. apply H2 in H. apply last_value_in in H as [H|H]; [discriminate|easy]. }
  split; [easy|].
  assert (N : forall x, (forall v, In (x, v) l -> False) -> ~ In x (map fst hs)).
  { intros x Hx Hin. apply in_map_iff in Hin as ([k v] & E & Hin). cbn in E. subst. eauto. }
  split; [|split].
  - apply N. intros v Hv. now apply G in Hv as (_ & H & _).
  - apply N. intros v Hv. now apply G in Hv as (_ & _ & H & _).
  - apply Forall_forall. intros [k v] Hin. apply I, G in Hin as (Ha & _ & _ & Hb). easy.
Qed.

(** Reading back what was written with one close gives the objects, in order, and
    then the end.  Missing from C27: histories with more than one close. *)
Theorem C27_roundtrip_partial : forall attr_ws, normalises attr_ws ->
  forall ord, (forall l, Permutation (ord l) l) ->
  forall cs, closes cs = 1%nat -> Forall (xml_object attr_ws) (written cs) ->
  good_header_calls attr_ws (header_calls cs) ->
  Runs xml_next (xml_items attr_ws (out (fst (run_calls (xml_call ord) (new_writer None) cs))))
    (map as_read (written cs)) (Ret []).
Proof.
  intros aw Hw ord Hord cs Hc Ho Hh.
  destruct (C25_document_partial ord Hord cs Hc) as (hs & H1 & H2).
  { eapply Forall_impl; [|exact Ho]. intros o (_ & H & _). exact H. }
  rewrite H2, xml_items_document; [|easy|now apply (header_map_good _ _ _ H1)|easy].
  eapply runs_items; [| |exact Ho]; unfold xml_pre; repeat constructor.
Qed.
Print Assumptions C27_roundtrip_partial.

(** False with an explicit close followed by drop (the second close): all objects
    come back, but then the reader panics instead of reporting the end. *)
Theorem C27_closed_twice_refuted : forall attr_ws, normalises attr_ws ->
  forall ord, (forall l, Permutation (ord l) l) ->
  forall cs, (2 <= closes cs)%nat -> Forall (xml_object attr_ws) (written cs) ->
  good_header_calls attr_ws (header_calls cs) ->
  Runs xml_next (xml_items attr_ws (out (fst (run_calls (xml_call ord) (new_writer None) cs))))
    (map as_read (written cs)) Panic.
Proof.
  intros aw Hw ord Hord cs Hc Ho Hh. destruct (C23_xml_output ord Hord cs) as (hs & H1 & H2 & _).
  assert (Hv : Forall (fun o => m_version (s_meta o) <> None) (written cs)).
  { eapply Forall_impl; [|exact Ho]. intros o (_ & H & _). exact H. }
  rewrite H2, closes_started, write_texts by (try easy; lia).
  destruct (closes cs) as [|[|n]]; try lia. cbn [repeat concat].
  replace (xml_opening hs ++ flat_map obj_text (written cs) ++ xml_closing ++ xml_closing
      ++ concat (repeat xml_closing n))
    with (xml_document hs (written cs) ++ concat (repeat xml_closing (S n)))
    by (unfold xml_document; cbn [repeat concat]; now rewrite <- !app_assoc).
  rewrite xml_items_reclosed; [|easy|now apply (header_map_good _ _ _ H1)|easy].
  eapply runs_items_err; [| |exact Ho]; unfold xml_pre; repeat constructor.
Qed.
Print Assumptions C27_closed_twice_refuted.

(** Instants outside that range come back as other instants. *)
Theorem C27_late_timestamp_refuted :
  let o := SWay (SW (Meta 1 (Some 1) false None (Some (EpochNumber 4294967296)) None None) [] []) in
  Runs xml_next (xml_items (fun c => c)
     (out (fst (run_calls (xml_call (fun l => l)) (new_writer None) [CWrite o; CClose]))))
    [as_read o] (Ret [])
  /\ opt_map to_iso_string (m_timestamp (s_meta (as_read o))) = Some (lit "1970-01-01T00:00:00Z")
  /\ s_eqb (as_read o) o = false.
Proof.
  cbv zeta. set (o := SWay _). split; [|split; vm_compute; reflexivity].
  apply (C27_roundtrip_partial (fun c => c)) with (cs := [CWrite o; CClose]); try easy; [|constructor].
  constructor; [|constructor]. unfold xml_object, in_range, has_position, texts_carried, opt_prop.
  cbn. unfold in_i64, in_u32. repeat split; try lia; try easy; constructor.
Qed.
Print Assumptions C27_late_timestamp_refuted.

Definition ex_rel : sobj :=
  SRel (SR ex_meta [(lit "name", [8364; 38; 128512])] [(TNode, -5, []); (TRelation, 8, lit "out'er")]).

Lemma ex_objects : Forall (xml_object (fun c => c)) [ex_node; ex_way; ex_rel].
Proof.
  unfold xml_object, in_range, has_position, texts_carried, carried, opt_prop, in_i64, in_u32, in_i32.
  repeat constructor; cbn; repeat split; try lia; try easy; repeat constructor; cbn; easy.
Qed.

Example C27_ex : Forall (xml_object (fun c => c)) [ex_node; ex_way; ex_rel]
  /\ opt_prop kept_timestamp (m_timestamp (s_meta ex_rel))
  /\ xml_next (xml_items (fun c => c) (utf8 (xml_document [(lit "a", lit "b")] [ex_rel])))
     = Ret (Some (as_read ex_rel), map IEv [EOther [10]; EEnd (lit "osm"); EOther []]).
Proof.
  split; [exact ex_objects|]. split; [cbn; lia|]. vm_compute. reflexivity.
Qed.

(** ** C28 *)

(** Reading back an OsmChange file, after any history of calls and the final
    close. *)
Theorem C28_roundtrip : forall attr_ws, normalises attr_ws ->
  forall cs, Forall (xml_object attr_ws) (written cs) ->
  Runs osc_next (xml_items attr_ws (out (fst (run_calls osc_call (new_writer None) (cs ++ [CClose])))))
    (map as_read (written cs)) (Ret []).
Proof.
  intros aw Hw cs Ho. rewrite C24_document.
  2:{ eapply Forall_impl; [|exact Ho]. intros o (_ & H & _). exact H. }
  rewrite osc_items_document by easy.
  assert (E : forall s l r, Runs xml_next s l r -> Runs osc_next s l r).
  { induction 1; [apply Runs_end|apply Runs_panic|eapply Runs_step]; rewrite ?osc_next_eq; eauto. }
  apply E. eapply runs_items; [| |exact Ho]; unfold osc_pre; repeat constructor.
Qed.
Print Assumptions C28_roundtrip.

Example C28_ex : written [CWrite ex_node; CWrite ex_rel; CClose; CWrite ex_way] = [ex_node; ex_rel]
  /\ osc_next (xml_items (fun c => c) (out (fst (run_calls osc_call (new_writer None) [CWrite ex_node; CWrite ex_rel; CClose]))))
     = Ret (Some (as_read ex_node), map IEv (objs_events [ex_rel] ++
        [EOther [10]; EEnd (lit "modify"); EOther [10]; EEnd (lit "osmChange"); EOther []])).
Proof. split; [reflexivity|]. vm_compute. reflexivity. Qed.

(** ** C29: false of the code *)

(** A node without position is written, and on reading back it ends the
    iteration: it and everything after it are not seen. *)
Theorem C29_node_without_position_refuted : forall attr_ws, normalises attr_ws ->
  forall n os, sn_latlon n = None -> in_range (SNode n) -> m_version (sn_meta n) <> None ->
  texts_carried attr_ws (SNode n) -> opt_prop (safe_timestamp attr_ws) (m_timestamp (sn_meta n)) ->
  Forall (xml_object attr_ws) os ->
  snd (run_calls (xml_call (fun l => l)) (new_writer None) (map CWrite (SNode n :: os) ++ [CClose]))
    = repeat (WOk tt) (length os + 2)
  /\ exists rest, Runs xml_next (xml_items attr_ws (out (fst (run_calls (xml_call (fun l => l)) (new_writer None)
       (map CWrite (SNode n :: os) ++ [CClose]))))) [] (Ret rest).
Proof.
  intros aw Hw n os Hl Hr Hv Ht Hs Ho.
  assert (Hv' : Forall (fun o => m_version (s_meta o) <> None) (SNode n :: os)).
  { constructor; [exact Hv|]. eapply Forall_impl; [|exact Ho]. intros o (_ & H & _). exact H. }
  split.
  { pose proof (new_run _ _ (xml_refines (fun l => l)) (map CWrite (SNode n :: os) ++ [CClose])) as H.
    assert (G : forall os st h, st = Initial \/ st = WritingObjects ->
      Forall (fun o => m_version (s_meta o) <> None) os ->
      let '(_, _, _, rs) := steps (xml_step (fun l => l)) (map CWrite os ++ [CClose]) st h in
      rs = repeat (WOk tt) (length os + 1)).
    { clear. induction os as [|o os IH]; intros st h Hst Hv.
      - destruct Hst as [-> | ->]; reflexivity.
      - inv Hv. cbn [map app steps].
        assert (E : write_res o = WOk tt) by (unfold write_res; now destruct (m_version (s_meta o))).
        specialize (IH WritingObjects h ltac:(now right) H2).
        destruct Hst as [-> | ->]; cbn [xml_step];
          destruct (steps (xml_step (fun l => l)) (map CWrite os ++ [CClose]) WritingObjects h) as [[[t' st'] h'] rs];
          rewrite E, IH; reflexivity. }
    specialize (G (SNode n :: os) Initial [] ltac:(now left) Hv').
    destruct (steps (xml_step (fun l => l)) (map CWrite (SNode n :: os) ++ [CClose]) Initial []) as [[[t st] h] rs].
    rewrite H. cbn [snd]. rewrite G. cbn [length]. f_equal. lia. }
  set (cs := map CWrite (SNode n :: os) ++ [CClose]).
  assert (Ew : written cs = SNode n :: os).
  { unfold cs. generalize (SNode n :: os). induction l; cbn; congruence. }
  assert (Ec : closes cs = 1%nat).
  { unfold cs, closes. generalize (SNode n :: os). induction l; cbn; congruence. }
  destruct (C25_document_partial (fun l => l) (fun l => Permutation_refl l) cs Ec) as (hs & H1 & H2).
  { now rewrite Ew. }
  rewrite H2, Ew.
  assert (hs = []) as ->.
  { unfold cs in H1. cbn in H1. destruct H1 as [_ H1]. destruct hs as [|[k v] hs]; [easy|].
    assert (E : last_value k [] = Some v) by (apply H1; now left). discriminate. }
  assert (Hd : run_xml_items aw (xml_document [] (SNode n :: os))
    = map IEv (xml_pre [] ++ objs_events (SNode n :: os) ++ [EOther [10]; EEnd (lit "osm"); EOther []])).
  { unfold run_xml_items, xml_document. cbn [flat_map]. rewrite !run_app, run_xml_opening, run_obj, run_objs;
      try easy; try (repeat split; try constructor; easy).
    unfold xml_closing. change (lit "</osm>") with (lit "</" ++ lit "osm" ++ lit ">").
    rewrite run_end_tag; [|repeat constructor|apply xml_name_lit; reflexivity].
    unfold titems. cbn [p_mode p_stack p_rooted p_evs flush].
    unfold xml_pre, objs_events. f_equal. cbn [flat_map]. rewrite <- !app_assoc. reflexivity. }
  assert (Hx : xml_items aw (utf8 (xml_document [] (SNode n :: os)))
    = map IEv (xml_pre [] ++ objs_events (SNode n :: os) ++ [EOther [10]; EEnd (lit "osm"); EOther []])).
  { unfold xml_items. rewrite utf8_decode_encode; [exact Hd|].
    apply (titems_no_err aw tstart). unfold run_xml_items in Hd. rewrite Hd. apply map_IEv_noerr. }
  rewrite Hx. clear Hx Hd. eexists. apply Runs_end.
  cbn [objs_events flat_map]. change (flat_map (fun o => EOther [10; 9] :: obj_events o) os) with (objs_events os).
  rewrite obj_events_eq.
  match goal with |- xml_next (map IEv (xml_pre [] ++ ((EOther ?t :: EStart ?nm ?a :: ?b ++ [EEnd ?nm']) ++ ?r1) ++ ?r2)) = _ =>
    replace (map IEv (xml_pre [] ++ ((EOther t :: EStart nm a :: b ++ [EEnd nm']) ++ r1) ++ r2))
    with (map IEv ((xml_pre [] ++ [EOther t]) ++ EStart nm a :: b ++ [EEnd nm']) ++ map IEv (r1 ++ r2))
    by (rewrite <- map_app, <- !app_assoc; cbn [app]; rewrite <- !app_assoc; reflexivity) end.
  rewrite next_element.
  - f_equal. f_equal. unfold object_of.
    destruct (obj_attribute (SNode n)) as (E1 & _ & _ & _ & _ & _ & _ & El & _).
    rewrite E1. cbn [opt_bind]. rewrite parse_show_i64 by (now destruct Hr).
    cbn [opt_bind]. rewrite El, Hl. reflexivity.
  - unfold xml_pre. repeat constructor.
  - reflexivity.
  - apply body_no_end.
  - reflexivity.
  - constructor; [apply obj_attrs_names|apply body_distinct].
Qed.
Print Assumptions C29_node_without_position_refuted.

(** An ISO timestamp text is written without escaping; a quote in it breaks the
    file.  A control character in a text does, too. *)
Theorem C29_unescaped_timestamp_refuted :
  let o := SWay (SW (Meta 1 (Some 1) false None (Some (ISOString [97; 34])) None None) [] []) in
  let run := run_calls (xml_call (fun l => l)) (new_writer None) [CWrite o; CClose] in
  snd run = [WOk tt; WOk tt] /\ Runs xml_next (xml_items (fun c => c) (out (fst run))) [] Panic.
Proof. cbv zeta. split; [vm_compute; reflexivity|]. apply Runs_panic. vm_compute. reflexivity. Qed.
Print Assumptions C29_unescaped_timestamp_refuted.

Theorem C29_control_character_refuted :
  let o := SWay (SW (Meta 1 (Some 1) false None None None (Some [1])) [] []) in
  let run := run_calls (xml_call (fun l => l)) (new_writer None) [CWrite o; CClose] in
  snd run = [WOk tt; WOk tt] /\ Runs xml_next (xml_items (fun c => c) (out (fst run))) [] Panic.
Proof. cbv zeta. split; [vm_compute; reflexivity|]. apply Runs_panic. vm_compute. reflexivity. Qed.
Print Assumptions C29_control_character_refuted.

(** What holds of C29: see C27_roundtrip_partial; it covers every object with a
    version, nodes having a position, and texts XML can carry. *)

(** ** C30 *)

Lemma attribute_app l extra k : Forall (fun p => fst p <> lit k) extra -> attribute (l ++ extra) k = attribute l k.
Proof.
  intros H. induction l as [|[k' v'] l IH]; cbn.
  - induction H as [|[k' v'] e Hk _ IHe]; [easy|]. cbn in *.
    destruct (str_eqb k' (lit k)) eqn:E; [|easy]. apply str_eqb_eq in E. now elim Hk.
  - now rewrite IH.
Qed.

Lemma noisy_attribute keys l l' k : noisy_attrs keys l l' -> In (lit k) keys -> NoDup (map fst l') ->
  attribute l' k = attribute l k.
Proof.
  intros (extra & Hx & P) Hk Hd. rewrite (attribute_perm _ _ k Hd P). apply attribute_app.
  eapply Forall_impl; [|exact Hx]. intros [a b] H. cbn in *. congruence.
Qed.

Lemma noisy_nodup keys l l' : noisy_attrs keys l l' -> NoDup (map fst l') -> NoDup (map fst l).
Proof.
  intros (extra & _ & P) H.
  apply (Permutation_NoDup (Permutation_map fst P)) in H. rewrite map_app in H.
  clear P. induction (map fst l) as [|x xs IH]; [constructor|]. cbn in H. inv H.
  constructor; [|now apply IH]. intros Hin. apply H2. apply in_or_app. now left.
Qed.

Lemma noisy_filter {B} (f : event -> option B) :
  (forall e, meaningless e -> f e = None) ->
  (forall n l l', noisy_attrs child_keys l l' -> NoDup (map fst l') -> f (EStart n l') = f (EStart n l)) ->
  forall b b', noisy b b' -> Forall distinct_attrs b' -> filter_map f b' = filter_map f b.
Proof.
  intros H1 H2. induction 1 as [|e b b' He _ IH|n l l' b b' Hl _ IH|n b b' _ IH|t b b' _ IH]; intros Hd;
    cbn [filter_map]; [easy| | | |]; inv Hd.
  - rewrite (H1 e He). now apply IH.
  - rewrite (H2 n l l' Hl) by easy. now rewrite IH.
  - now rewrite IH.
  - now rewrite IH.
Qed.

Lemma meaningless_name n (s : string) : ~ In n (map lit ["tag"; "nd"; "member"; "node"; "way"; "relation"]%string) ->
  In s ["tag"; "nd"; "member"; "node"; "way"; "relation"]%string -> str_eqb n (lit s) = false.
Proof.
  intros H Hs. apply str_eqb_neq. intros ->. apply H. now apply in_map.
Qed.

Ltac key := cbn; tauto.

Lemma noisy_object n a a' body body' : noisy_attrs obj_keys a a' -> NoDup (map fst a') ->
  noisy body body' -> Forall distinct_attrs body' ->
  object_of n a' body' = object_of n a body.
Proof.
  intros Ha Hd Hb Hd'.
  assert (A : forall k, In k ["id"; "version"; "changeset"; "timestamp"; "uid"; "user"; "lat"; "lon"; "visible"]%string ->
    attribute a' k = attribute a k).
  { intros k Hk. apply (noisy_attribute obj_keys); auto. now apply in_map. }
  assert (M : forall id, meta_of (attribute a') id = meta_of (attribute a) id).
  { intros id. unfold meta_of. rewrite !A by key. reflexivity. }
  assert (K : forall l l' k, noisy_attrs child_keys l l' -> NoDup (map fst l') ->
    In k ["k"; "v"; "ref"; "type"; "role"]%string -> attribute l' k = attribute l k).
  { intros l l' k Hl Hn Hk. apply (noisy_attribute child_keys); auto. now apply in_map. }
  unfold object_of. rewrite !A by key.
  rewrite (noisy_filter tag_of) with (b := body); auto.
  2:{ intros [m l|m|t] H; try easy. cbn [meaningless tag_of] in *. now rewrite (meaningless_name m "tag") by (auto; key). }
  2:{ intros m l l' Hl Hn. cbn [tag_of]. destruct (str_eqb m (lit "tag")); [|easy].
      now rewrite !(K l l') by (auto; key). }
  rewrite (noisy_filter ref_of) with (b := body); auto.
  2:{ intros [m l|m|t] H; try easy. cbn [meaningless ref_of] in *. now rewrite (meaningless_name m "nd") by (auto; key). }
  2:{ intros m l l' Hl Hn. cbn [ref_of]. destruct (str_eqb m (lit "nd")); [|easy].
      now rewrite !(K l l') by (auto; key). }
  rewrite (noisy_filter member_of) with (b := body); auto.
  2:{ intros [m l|m|t] H; try easy. cbn [meaningless member_of] in *. now rewrite (meaningless_name m "member") by (auto; key). }
  2:{ intros m l l' Hl Hn. cbn [member_of]. destruct (str_eqb m (lit "member")); [|easy].
      now rewrite !(K l l') by (auto; key). }
  destruct (opt_bind (attribute a "id") parse_i64) as [id|]; [|easy]. cbn [opt_bind]. now rewrite M.
Qed.

(** An element whose content does not close another object. *)
Definition obj_content (body : list event) : Prop := Forall (fun e => ends_obj e = false) body.

Lemma noisy_content b b' : noisy b b' -> obj_content b -> obj_content b'.
Proof.
  induction 1 as [|e b b' He _ IH|n l l' b b' Hl _ IH|n b b' _ IH|t b b' _ IH]; intros H;
    try (inv H; constructor; [easy|now apply IH]); [constructor|].
  constructor; [|now apply IH]. destruct e as [|n|]; try easy. cbn [meaningless ends_obj] in *.
  unfold obj_name, name_is.
  rewrite !(meaningless_name n) by (auto; key). reflexivity.
Qed.

Lemma noisy_distinct b b' : noisy b b' -> Forall distinct_attrs b' -> Forall distinct_attrs b.
Proof.
  induction 1; intros H'; try (inv H'; auto); try constructor; auto; cbn.
  match goal with H : noisy_attrs _ _ _ |- _ => eapply (noisy_nodup _ _ _ H) end. assumption.
Qed.

(** Both readers: whatever comes before the element (no objects), noise in it does
    not change the object read nor where reading goes on. *)
Theorem C30_noise : forall pre pre' n a a' body body' rest,
  Forall quiet pre -> Forall quiet pre' -> In n (map lit ["node"; "way"; "relation"]%string) ->
  obj_content body -> noisy_attrs obj_keys a a' -> noisy body body' ->
  Forall distinct_attrs (EStart n a' :: body') ->
  xml_next (map IEv (pre' ++ EStart n a' :: body' ++ [EEnd n]) ++ rest)
  = xml_next (map IEv (pre ++ EStart n a :: body ++ [EEnd n]) ++ rest)
  /\ osc_next (map IEv (pre' ++ EStart n a' :: body' ++ [EEnd n]) ++ rest)
  = osc_next (map IEv (pre ++ EStart n a :: body ++ [EEnd n]) ++ rest).
Proof.
  intros pre pre' n a a' body body' rest Hp Hp' Hn Hb Ha Hbb Hd.
  assert (Hn' : obj_name n = true) by (destruct Hn as [<-|[<-|[<-|[]]]]; reflexivity).
  assert (Hd1 := Forall_inv Hd). assert (Hd2 := Forall_inv_tail Hd). cbn in Hd1.
  assert (E : xml_next (map IEv (pre' ++ EStart n a' :: body' ++ [EEnd n]) ++ rest)
    = xml_next (map IEv (pre ++ EStart n a :: body ++ [EEnd n]) ++ rest)).
  { rewrite !next_element; auto.
    - now rewrite (noisy_object n a a' body body').
    - constructor; [exact (noisy_nodup _ _ _ Ha Hd1)|exact (noisy_distinct _ _ Hbb Hd2)].
    - now apply (noisy_content body). }
  split; [exact E|]. now rewrite !osc_next_eq.
Qed.
Print Assumptions C30_noise.

Example C30_ex : noisy_attrs obj_keys [(lit "id", lit "1"); (lit "lat", lit "2"); (lit "lon", lit "3")]
     [(lit "lon", lit "3"); (lit "x", lit "9"); (lit "id", lit "1"); (lit "lat", lit "2")]
  /\ noisy [EStart (lit "tag") [(lit "k", lit "a"); (lit "v", lit "b")]; EEnd (lit "tag")]
       [EOther [10]; EStart (lit "tag") [(lit "v", lit "b"); (lit "k", lit "a")]; EEnd (lit "tag");
        EStart (lit "z") []; EEnd (lit "z")].
Proof.
  split.
  - exists [(lit "x", lit "9")]. split.
    + repeat constructor. cbn. intuition discriminate.
    + apply (Permutation_app_comm [(lit "lon", lit "3"); (lit "x", lit "9")] [(lit "id", lit "1"); (lit "lat", lit "2")]).
  - apply noisy_add; [easy|]. apply noisy_start.
    + exists []. split; [constructor|]. apply perm_swap.
    + apply noisy_end. apply noisy_add; [cbn; intuition discriminate|].
      apply noisy_add; [cbn; intuition discriminate|]. apply noisy_nil.
Qed.

(** ** C31 *)

(** One element: its object is the one the format specification says. *)
Theorem C31_element : forall pre n a body rest,
  Forall quiet pre -> In n (map lit ["node"; "way"; "relation"]%string) -> obj_content body ->
  Forall distinct_attrs (EStart n a :: body) ->
  xml_next (map IEv (pre ++ EStart n a :: body ++ [EEnd n]) ++ rest) = Ret (object_of n a body, rest)
  /\ osc_next (map IEv (pre ++ EStart n a :: body ++ [EEnd n]) ++ rest) = Ret (object_of n a body, rest).
Proof.
  intros pre n a body rest Hp Hn Hb Hd.
  assert (Hn' : obj_name n = true) by (destruct Hn as [<-|[<-|[<-|[]]]]; reflexivity).
  split; [|rewrite osc_next_eq]; now apply next_element.
Qed.
Print Assumptions C31_element.

(** A file: all elements that denote objects come out, in order. *)
Record element := Element { el_pre : list event; el_name : str; el_attrs : list (str * str); el_body : list event }.
Definition element_events (e : element) : list event :=
  el_pre e ++ EStart (el_name e) (el_attrs e) :: el_body e ++ [EEnd (el_name e)].
Definition good_element (e : element) : Prop :=
  Forall quiet (el_pre e) /\ In (el_name e) (map lit ["node"; "way"; "relation"]%string)
  /\ obj_content (el_body e) /\ Forall distinct_attrs (EStart (el_name e) (el_attrs e) :: el_body e).
Definition element_object (e : element) : option sobj := object_of (el_name e) (el_attrs e) (el_body e).

Theorem C31_file : forall els post os, Forall good_element els -> Forall quiet post ->
  map element_object els = map Some os ->
  Runs xml_next (map IEv (flat_map element_events els ++ post)) os (Ret [])
  /\ Runs osc_next (map IEv (flat_map element_events els ++ post)) os (Ret []).
Proof.
  assert (E : forall s l r, Runs xml_next s l r -> Runs osc_next s l r).
  { induction 1; [apply Runs_end|apply Runs_panic|eapply Runs_step]; rewrite ?osc_next_eq; eauto. }
  intros els post os Hg Hp Hm.
  assert (G : Runs xml_next (map IEv (flat_map element_events els ++ post)) os (Ret [])).
  { revert os Hm. induction Hg as [|e els He _ IH]; intros os Hm.
    - destruct os; [|discriminate]. cbn. apply Runs_end. now apply next_end.
    - destruct os as [|o os]; [discriminate|]. cbn in Hm. injection Hm as Ho Hm.
      destruct He as (H1 & H2 & H3 & H4).
      cbn [flat_map]. rewrite <- app_assoc, map_app. eapply Runs_step; [|now apply IH].
      etransitivity; [exact (proj1 (C31_element _ _ _ _ _ H1 H2 H3 H4))|].
      unfold element_object in Ho. now rewrite Ho. }
  split; [exact G|now apply E].
Qed.
Print Assumptions C31_file.

Example C31_ex : object_of (lit "node")
    [(lit "visible", lit "false"); (lit "lat", lit "1.5"); (lit "id", lit "-7"); (lit "version", lit "x");
     (lit "lon", lit "2"); (lit "uid", lit "4")]
    [EStart (lit "tag") [(lit "k", lit "a")]; EEnd (lit "tag");
     EStart (lit "tag") [(lit "v", lit "c"); (lit "k", lit "b")]; EEnd (lit "tag")]
  = Some (SNode (SN (Meta (-7) None true None None (Some 4) None) [(lit "b", lit "c")] (Some (15000000, 20000000)))).
Proof. vm_compute. reflexivity. Qed.

(** ** C59: false of the code *)

(** An element without what an object needs (here: an id) makes next report the
    end, whatever objects follow. *)
Theorem C59_incomplete_element_refuted : forall pre n a body rest,
  Forall quiet pre -> In n (map lit ["node"; "way"; "relation"]%string) -> obj_content body ->
  Forall distinct_attrs (EStart n a :: body) -> attribute a "id" = None ->
  Runs xml_next (map IEv (pre ++ EStart n a :: body ++ [EEnd n]) ++ rest) [] (Ret rest).
Proof.
  intros pre n a body rest Hp Hn Hb Hd Hi. apply Runs_end.
  destruct (C31_element pre n a body rest Hp Hn Hb Hd) as [-> _].
  unfold object_of. now rewrite Hi.
Qed.
Print Assumptions C59_incomplete_element_refuted.

Example C59_ex : Runs xml_next
   (map IEv [EStart (lit "way") [(lit "version", lit "1")]; EEnd (lit "way");
             EStart (lit "way") [(lit "id", lit "5")]; EEnd (lit "way")]) []
   (Ret (map IEv [EStart (lit "way") [(lit "id", lit "5")]; EEnd (lit "way")])).
Proof. apply Runs_end. reflexivity. Qed.

(** What holds: when every element denotes an object, the end is reported only at
    the end of the file (C31_file).  Missing from C59: incomplete elements. *)
Theorem C59_end_partial : forall els post, Forall good_element els -> Forall quiet post ->
  Forall (fun e => element_object e <> None) els ->
  exists os, length os = length els
  /\ Runs xml_next (map IEv (flat_map element_events els ++ post)) os (Ret []).
Proof.
  intros els post Hg Hp Hn.
  assert (E : exists os, map element_object els = map Some os).
  { clear -Hn. induction Hn as [|e els He _ (os & IH)]; [now exists []|].
    destruct (element_object e) as [o|] eqn:Eo; [|easy]. exists (o :: os). cbn. now rewrite Eo, IH. }
  destruct E as (os & E). exists os. split.
  - apply (f_equal (@length _)) in E. rewrite !map_length in E. easy.
  - now apply C31_file.
Qed.
Print Assumptions C59_end_partial.

Example C59_ex2 : good_element (Element [EOther [10]] (lit "way") [(lit "id", lit "5")] [])
  /\ element_object (Element [EOther [10]] (lit "way") [(lit "id", lit "5")] []) <> None.
Proof.
  split; [|discriminate]. unfold good_element, obj_content. cbn [el_pre el_name el_attrs el_body].
  split; [repeat constructor|]. split; [right; now left|]. split; [constructor|].
  repeat constructor. easy.
Qed.

