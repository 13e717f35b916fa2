(** C27, C28, C29: exactly which objects come back from XML and OsmChange files. *)
From Coq Require Import String ZArith List Bool Lia Permutation.
From Coq Require Import ZifyBool ZifyNat.
From Verif Require Import Base SpecNum Ints Timestamp Obj Coord CoordFacts Utf8 XmlWrite SpecXml SpecWriter XmlWriteFacts
  XmlToken XmlRead SpecXmlRead SpecIter XmlRound XmlReadBack XmlTrunc SpecXmlText XmlExact PropsWriter PropsXml.
Import ListNotations.
Open Scope Z_scope.

(** ** Characters of a document *)

Section Chars.
Variable Q : char -> Prop.
Hypothesis HQ : forall c, c = 9 \/ c = 10 \/ 32 <= c <= 126 -> Q c.
Notation ok := (Forall Q).

Ltac ok_lit := cbn; repeat constructor; apply HQ; lia.

Lemma esc_ok s : ok (esc s) <-> ok s.
Proof.
  unfold esc. induction s as [|c s IH]; [easy|]. cbn [flat_map]. rewrite Forall_app, IH.
  assert (ok (esc_char c) <-> Q c) as ->.
  { unfold esc_char. change (chr "&") with 38. change (chr "'") with 39. change (chr "<") with 60. change (chr ">") with 62.
    repeat match goal with |- context [if c =? ?x then _ else _] => destruct (Z.eqb_spec c x) as [->|?] end;
      try (split; intros _; [apply HQ; lia|ok_lit]).
    split; [intros H; now inv H|]. intros H. now repeat constructor. }
  split; [intros []; now constructor|]. intros H. now inv H.
Qed.

Lemma tame_ok s : Forall tame s -> ok s.
Proof. apply Forall_impl. intros c H. apply HQ. unfold tame in H. lia. Qed.

Lemma attrs_ok l : Forall (fun p => ok (fst p)) l -> (ok (attrs_text l) <-> Forall (fun p => ok (snd p)) l).
Proof.
  induction 1 as [|[a t] l Ha _ IH]; [cbn; easy|]. cbn [attrs_text flat_map]. unfold attr_text at 1. cbn [fst snd] in *.
  rewrite !Forall_app. fold (attrs_text l). rewrite IH. split.
  - intros ((_ & _ & _ & _ & H & _) & K). now constructor.
  - intros H. inv H. cbn [snd] in *. assert (ok [34]) by ok_lit. assert (ok (lit " ")) by ok_lit. assert (ok (lit "=")) by ok_lit.
    repeat split; assumption.
Qed.

Lemma name_long_ok t : ok (name_long t).
Proof. apply tame_ok, name_long_tame. Qed.

Lemma child_ok n l e : ok n -> ok e -> Forall (fun p => ok (fst p)) l ->
  (ok (child_text n l e) <-> Forall (fun p => ok (snd p)) l).
Proof.
  intros Hn He Hl. unfold child_text. rewrite !Forall_app, (attrs_ok l Hl).
  split; [intros (_ & _ & _ & H & _); exact H|]. intros H.
  assert (ok [10; 9; 9]) by ok_lit. assert (ok (lit "<")) by ok_lit. repeat split; assumption.
Qed.

Lemma flat_ok {A} (f : A -> str) (R : A -> Prop) l : (forall a, In a l -> (ok (f a) <-> R a)) ->
  (ok (flat_map f l) <-> Forall R l).
Proof.
  induction l as [|a l IH]; intros H; [cbn; easy|]. cbn [flat_map]. rewrite Forall_app, IH, H by (intros; try apply H; cbn; auto).
  split; [intros []; now constructor|]. intros K. now inv K.
Qed.

Lemma opt_list_forall {A} (o : option A) (f : A -> str * str) R :
  Forall R (opt_list o (fun a => [f a])) <-> opt_prop (fun a => R (f a)) o.
Proof.
  destruct o; cbn; [|easy]. split; [intros H; now inv H|]. intros H. now repeat constructor.
Qed.

Lemma obj_attrs_ok o : in_range o ->
  (ok (attrs_text (obj_attrs esc o)) <-> opt_prop ok (m_user (s_meta o)) /\ opt_prop (fun t => ok (to_iso_string t)) (m_timestamp (s_meta o))).
Proof.
  intros (_ & Hv & Hc & Hu & _). rewrite attrs_ok.
  - unfold obj_attrs. rewrite !Forall_app, !opt_list_forall. cbn [snd].
    assert (opt_prop (fun u => ok (esc u)) (m_user (s_meta o)) <-> opt_prop ok (m_user (s_meta o))) as ->
      by (destruct (m_user (s_meta o)); cbn; [apply esc_ok|easy]).
    assert (N : forall x, opt_prop in_u32 x -> opt_prop (fun v => ok (show_uint v)) x).
    { intros [x|]; cbn; [|easy]. unfold in_u32. intros K. apply tame_ok, show_uint_tame. lia. }
    split; [tauto|]. intros [A B].
    repeat split; auto.
    + repeat constructor; cbn [snd]; [apply tame_ok, show_int_tame|]. destruct (m_deleted (s_meta o)); ok_lit.
    + destruct o as [n|w|r]; try constructor. destruct (sn_latlon n) as [[la lo]|]; cbn [opt_list]; repeat constructor;
        cbn [snd]; apply tame_ok, show_coord_tame.
  - unfold obj_attrs. repeat (apply Forall_app; split); repeat constructor; cbn [fst];
      try (apply opt_list_forall; match goal with |- opt_prop _ ?x => destruct x; cbn [opt_prop fst]; [|exact I]; ok_lit end);
      try ok_lit.
    destruct o as [n|w|r]; try constructor. destruct (sn_latlon n) as [[la lo]|]; cbn [opt_list]; repeat constructor;
        cbn [fst]; ok_lit.
Qed.

Lemma children_ok o : ok (children_text o) <->
  Forall (fun t => ok (fst t) /\ ok (snd t)) (s_tags o) /\ Forall (fun m => ok (snd m)) (obj_members o).
Proof.
  unfold children_text. rewrite !Forall_app.
  rewrite (flat_ok (fun i => child_text (lit "nd") (nd_attrs i) (lit " />")) (fun _ => True)),
    (flat_ok (fun m => child_text (lit "member") (member_attrs esc m) (lit "/>")) (fun m => ok (snd m))),
    (flat_ok (fun t => child_text (lit "tag") (tag_attrs esc t) (lit " />")) (fun t => ok (fst t) /\ ok (snd t))).
  - split; [tauto|]. intros [A B]. repeat split; auto. apply Forall_forall. auto.
  - intros [k v] _. rewrite child_ok; [|ok_lit|ok_lit|repeat constructor; cbn [fst]; ok_lit]. cbn [fst snd]. split.
    + intros H. inv H. inv H3. cbn [tag_attrs fst snd] in *. now rewrite !esc_ok in *.
    + intros [A B]. repeat constructor; cbn [snd]; now rewrite esc_ok.
  - intros [[t i] role] _. rewrite child_ok; [|ok_lit|ok_lit|repeat constructor; cbn [fst]; ok_lit]. cbn [fst snd]. split.
    + intros H. inv H. inv H3. inv H4. cbn [snd] in *. now rewrite esc_ok in *.
    + intros A. repeat constructor; cbn [snd]; [apply name_long_ok|apply tame_ok, show_int_tame|now rewrite esc_ok].
  - intros i _. rewrite child_ok; [|ok_lit|ok_lit|repeat constructor; cbn [fst]; ok_lit]. split; [easy|]. intros _.
    repeat constructor; cbn [snd]. apply tame_ok, show_int_tame.
Qed.

Lemma obj_text_ok o : in_range o -> (ok (obj_text o) <-> texts ok ok o).
Proof.
  intros Hr. unfold obj_text, texts. rewrite !Forall_app, (obj_attrs_ok o Hr).
  assert (H1 : ok [10; 9]) by ok_lit. assert (H2 : ok (lit "<")) by ok_lit. pose proof (name_long_ok (s_type o)) as H3.
  assert (H4 : ok (lit " />")) by ok_lit. assert (H5 : ok (lit ">")) by ok_lit. assert (H6 : ok (lit "</")) by ok_lit.
  destruct (short_form o) eqn:Sh.
  - assert (s_tags o = [] /\ obj_members o = []) as [-> ->] by (destruct o as [[m [|t ts] p]| |]; cbn in *; try easy).
    split; [intros (_ & _ & _ & [A B] & _)|intros (A & _ & _ & B)]; repeat split; auto.
  - rewrite !Forall_app, children_ok. tauto.
Qed.

Lemma objs_text_ok os : Forall in_range os -> (ok (flat_map obj_text os) <-> Forall (texts ok ok) os).
Proof. intros H. apply flat_ok. intros o Ho. rewrite Forall_forall in H. now apply obj_text_ok, H. Qed.

Lemma declaration_ok : ok declaration.
Proof. ok_lit. Qed.

Lemma osc_document_ok os : Forall in_range os -> (ok (osc_document os) <-> Forall (texts ok ok) os).
Proof.
  intros H. unfold osc_document. rewrite !Forall_app, (objs_text_ok os H).
  assert (A : ok osc_opening) by ok_lit. assert (B : ok osc_closing) by ok_lit. tauto.
Qed.

Lemma xml_document_ok hs os : Forall in_range os -> Forall (fun h => ok (fst h) /\ ok (snd h)) hs ->
  (ok (xml_document hs os) <-> Forall (texts ok ok) os).
Proof.
  intros H Hh. unfold xml_document, xml_opening. rewrite !Forall_app, (objs_text_ok os H).
  assert (A : ok (lit "<osm")) by ok_lit. assert (B : ok xml_closing) by ok_lit. assert (C : ok (lit ">")) by ok_lit.
  pose proof declaration_ok as D.
  assert (E : ok (attrs_text (root_attrs ++ map (fun h => (fst h, esc (snd h))) hs))).
  { apply attrs_ok; apply Forall_app; split; try (repeat constructor; cbn [fst snd]; ok_lit);
      apply Forall_map; (eapply Forall_impl; [|exact Hh]); intros [k v] [K V]; cbn [fst snd] in *; [exact K|now apply esc_ok]. }
  tauto.
Qed.
End Chars.

(** ** Documents *)

Lemma run_bad aw s : forall p, ~ xchars s -> p_mode (trun aw p s) = MErr.
Proof.
  induction s as [|c s IH]; intros p H; [elim H; constructor|]. rewrite run_cons.
  destruct (xml_char c) eqn:E.
  - apply IH. intros K. apply H. now constructor.
  - unfold tstep at 1. rewrite E. cbn [negb goto]. apply trun_err.
Qed.

Section Documents.
Variable aw : char -> char.
Hypothesis Hw : normalises aw.

Definition strings (o : sobj) : Prop := texts valid_str valid_str o.

Lemma document_exact opening closing s st pre post os :
  trun aw tstart opening = P (MText []) (s :: st) true pre -> Forall quiet pre -> Forall quiet post ->
  (forall ev, titems (trun aw (P (MText []) (s :: st) true ev) closing) = map IEv (ev ++ post)) ->
  Forall in_range os -> (xchars (opening ++ flat_map obj_text os ++ closing) -> Forall (texts xchars xchars) os) ->
  (Runs xml_next (titems (trun aw tstart (opening ++ flat_map obj_text os ++ closing))) (map as_read os) (Ret []) <->
   Forall (comes_back aw) os).
Proof.
  intros Ho Hpre Hpost Hc Hr Hx. split.
  - intros HR. destruct (xcharsb (opening ++ flat_map obj_text os ++ closing)) eqn:E.
    + apply xcharsb_iff, Hx in E. rewrite run_app, Ho in HR.
      destruct (titems_ext aw (P (MText []) (s :: st) true pre) (flat_map obj_text os ++ closing)) as (its & Ei). cbn [p_evs] in Ei.
      rewrite Ei in HR. refine (exact_go aw Hw closing os Hr E s st pre pre its _ Hpre Ei HR).
      rewrite <- Ho. apply tidy_run. split; [repeat constructor|exact I].
    + exfalso. assert (Em : p_mode (trun aw tstart (opening ++ flat_map obj_text os ++ closing)) = MErr).
      { apply run_bad. intros K. apply xcharsb_iff in K. congruence. }
      unfold titems in HR. rewrite Em in HR. now apply runs_error in HR.
  - intros H.
    assert (Hn : Forall (fun o => texts xchars (fun s => xchars s /\ plain s) o /\ as_read (nrm_obj aw o) = as_read o) os).
    { eapply Forall_impl; [|exact H]. intros o [_ K]. now apply texts_nrm. }
    rewrite !run_app, Ho.
    rewrite (run_flat aw _ (fun o => EOther [10; 9] :: obj_events (nrm_obj aw o))).
    2:{ intros o Hin ev. rewrite Forall_forall in Hr, Hn. apply run_obj_g; auto. now apply Hn. }
    rewrite Hc.
    assert (F : flat_map (fun o => EOther [10; 9] :: obj_events (nrm_obj aw o)) os = objs_events (map (nrm_obj aw) os)).
    { unfold objs_events. clear. induction os; cbn; congruence. }
    rewrite F, map_app.
    assert (R : map as_read os = map as_read (map (nrm_obj aw) os) ++ []).
    { rewrite app_nil_r, map_map. apply map_ext_in. intros o Hin. rewrite Forall_forall in Hn. symmetry. now apply Hn. }
    rewrite R. apply runs_objs; auto.
    + apply Forall_map. eapply Forall_impl; [|exact Hr]. intros o. apply nrm_range.
    + apply Forall_map. eapply Forall_impl; [|exact H]. intros o [K _]. now apply nrm_position.
    + intros pre' H'. apply Runs_end. rewrite <- map_app. apply next_end. now apply Forall_app.
Qed.

Lemma xchar_basic c : c = 9 \/ c = 10 \/ 32 <= c <= 126 -> xml_char c = true.
Proof. unfold xml_char. lia. Qed.
Lemma scalar_basic c : c = 9 \/ c = 10 \/ 32 <= c <= 126 -> scalar c.
Proof. unfold scalar. lia. Qed.

Lemma good_header_chars hs : good_headers aw hs -> Forall (fun h => xchars (fst h) /\ xchars (snd h)) hs.
Proof.
  intros (_ & _ & _ & H). eapply Forall_impl; [|exact H]. intros [k v] [A B]. cbn [fst snd] in *. split.
  - unfold xml_name in A. destruct k; [easy|]. apply A.
  - eapply Forall_impl; [|exact B]. intros c K. apply K.
Qed.

Lemma xchars_valid s : xchars s -> valid_str s.
Proof. apply Forall_impl. intros c. unfold xml_char, scalar. lia. Qed.

Lemma xml_exact hs os : good_headers aw hs -> Forall in_range os -> Forall strings os ->
  (Runs xml_next (xml_items aw (utf8 (xml_document hs os))) (map as_read os) (Ret []) <-> Forall (comes_back aw) os).
Proof.
  intros Hh Hr Hs. pose proof (good_header_chars hs Hh) as Hhc. unfold xml_items. rewrite utf8_decode_encode.
  2:{ apply (xml_document_ok scalar scalar_basic hs os Hr); [|exact Hs].
      eapply Forall_impl; [|exact Hhc]. intros h [A B]. split; now apply xchars_valid. }
  apply document_exact with (s := lit "osm") (st := []) (pre := xml_pre hs) (post := [EOther [10]; EEnd (lit "osm"); EOther []]).
  - now apply run_xml_opening.
  - repeat constructor.
  - repeat constructor.
  - intros ev. unfold xml_closing. change (lit "</osm>") with (lit "</" ++ lit "osm" ++ lit ">").
    rewrite run_end_tag; [|repeat constructor|apply xml_name_lit; reflexivity].
    unfold titems. cbn [p_mode p_stack p_rooted p_evs flush]. f_equal. rewrite <- !app_assoc. reflexivity.
  - exact Hr.
  - intros H. now apply (xml_document_ok (fun c => xml_char c = true) xchar_basic hs os Hr Hhc) in H.
Qed.

Lemma osc_exact os : Forall in_range os -> Forall strings os ->
  (Runs xml_next (xml_items aw (utf8 (osc_document os))) (map as_read os) (Ret []) <-> Forall (comes_back aw) os).
Proof.
  intros Hr Hs. unfold xml_items. rewrite utf8_decode_encode.
  2:{ now apply (osc_document_ok scalar scalar_basic os Hr). }
  apply document_exact with (s := lit "modify") (st := [lit "osmChange"]) (pre := osc_pre)
    (post := [EOther [10]; EEnd (lit "modify"); EOther [10]; EEnd (lit "osmChange"); EOther []]).
  - apply run_osc_opening. exact Hw.
  - repeat constructor.
  - repeat constructor.
  - intros ev. unfold osc_closing.
    replace ([10] ++ lit "</modify>" ++ [10] ++ lit "</osmChange>")
      with (([10] ++ lit "</" ++ lit "modify" ++ lit ">") ++ ([10] ++ lit "</" ++ lit "osmChange" ++ lit ">")) by reflexivity.
    rewrite run_app, !run_end_tag; [|repeat constructor|apply xml_name_lit; reflexivity|repeat constructor|apply xml_name_lit; reflexivity].
    unfold titems. cbn [p_mode p_stack p_rooted p_evs flush]. f_equal. rewrite <- !app_assoc. reflexivity.
  - exact Hr.
  - intros H. now apply (osc_document_ok (fun c => xml_char c = true) xchar_basic os Hr) in H.
Qed.
End Documents.

(** ** The theorems *)

(** For objects with a version, whose numbers are in range and whose texts are strings:
    everything written comes back, in order, and then the end, exactly if every object is one
    that can come back. *)
Theorem C27_exact : forall attr_ws, normalises attr_ws -> forall ord, (forall l, Permutation (ord l) l) ->
  forall cs, closes cs = 1%nat -> good_header_calls attr_ws (header_calls cs) ->
  Forall (fun o => in_range o /\ m_version (s_meta o) <> None /\ strings o) (written cs) ->
  (Runs xml_next (xml_items attr_ws (out (fst (run_calls (xml_call ord) (new_writer None) cs))))
     (map as_read (written cs)) (Ret []) <->
   Forall (comes_back attr_ws) (written cs)).
Proof.
  intros aw Hw ord Hord cs Hc Hh Ho. destruct (C25_document_partial ord Hord cs Hc) as (hs & H1 & H2).
  { eapply Forall_impl; [|exact Ho]. intros o (_ & H & _). exact H. }
  rewrite H2. apply xml_exact; [exact Hw|now apply (header_map_good _ _ _ H1)| |];
    (eapply Forall_impl; [|exact Ho]); intros o (A & _ & B); assumption.
Qed.
Print Assumptions C27_exact.

Theorem C28_exact : forall attr_ws, normalises attr_ws -> forall cs,
  Forall (fun o => in_range o /\ m_version (s_meta o) <> None /\ strings o) (written cs) ->
  (Runs osc_next (xml_items attr_ws (out (fst (run_calls osc_call (new_writer None) (cs ++ [CClose])))))
     (map as_read (written cs)) (Ret []) <->
   Forall (comes_back attr_ws) (written cs)).
Proof.
  intros aw Hw cs Ho. rewrite C24_document.
  2:{ eapply Forall_impl; [|exact Ho]. intros o (_ & H & _). exact H. }
  assert (E : forall s l r, Runs xml_next s l r <-> Runs osc_next s l r).
  { split; induction 1; [apply Runs_end|apply Runs_panic|eapply Runs_step|apply Runs_end|apply Runs_panic|eapply Runs_step];
      rewrite ?osc_next_eq in *; eauto. }
  rewrite <- E. apply osc_exact; [exact Hw| |]; (eapply Forall_impl; [|exact Ho]); intros o (A & _ & B); assumption.
Qed.
Print Assumptions C28_exact.

(** So every object that cannot come back spoils the file it is written to. *)
Theorem C29_spoils_refuted : forall attr_ws, normalises attr_ws -> forall ord, (forall l, Permutation (ord l) l) ->
  forall cs o, closes cs = 1%nat -> good_header_calls attr_ws (header_calls cs) ->
  Forall (fun o => in_range o /\ m_version (s_meta o) <> None /\ strings o) (written cs) ->
  In o (written cs) -> ~ comes_back attr_ws o ->
  ~ Runs xml_next (xml_items attr_ws (out (fst (run_calls (xml_call ord) (new_writer None) cs))))
     (map as_read (written cs)) (Ret []).
Proof.
  intros aw Hw ord Hord cs o Hc Hh Ho Hin Hn HR. apply (C27_exact aw Hw ord Hord cs Hc Hh Ho) in HR.
  rewrite Forall_forall in HR. now apply Hn, HR.
Qed.
Print Assumptions C29_spoils_refuted.

(** A timestamp text that smuggles in a second object: the file is well-formed, two objects
    are read although one was written, and the second close of the element ends it. *)
Definition forged : sobj :=
  SWay (SW (Meta 1 (Some 1) false None
    (Some (ISOString (lit "x" ++ [34] ++ lit "/><way id=" ++ [34] ++ lit "2" ++ [34] ++ lit " version=" ++ [34] ++ lit "1"))) None None) [] []).

Example C29_forged_ex :
  let run := run_calls (xml_call (fun l => l)) (new_writer None) [CWrite forged; CClose] in
  let seen i t := SWay (SW (Meta i (Some 1) false None t None None) [] []) in
  snd run = [WOk tt; WOk tt] /\ in_range forged /\ strings forged /\ ~ comes_back (fun c => c) forged /\
  Runs xml_next (xml_items (fun c => c) (out (fst run))) [seen 1 (Some (ISOString (lit "x"))); seen 2 None] (Ret []).
Proof.
  cbv zeta. split; [vm_compute; reflexivity|]. split; [unfold in_range, opt_prop, in_i64, in_u32; cbn; repeat split; try lia; apply Forall_nil|].
  split.
  { unfold strings, texts. cbn. repeat split; try constructor; unfold scalar; try lia; repeat constructor; unfold scalar; lia. }
  split.
  { intros (_ & _ & _ & _ & H). cbn in H. destruct H as [_ H]. inv H. inv H3. lia. }
  eapply Runs_step; [vm_compute; reflexivity|]. eapply Runs_step; [vm_compute; reflexivity|].
  apply Runs_end. vm_compute. reflexivity.
Qed.

Lemma valid_strb s : forallb (fun c => ((0 <=? c) && (c <? 55296)) || ((57344 <=? c) && (c <=? 1114111))) s = true -> valid_str s.
Proof.
  rewrite forallb_forall. intros H. apply Forall_forall. intros c Hc. specialize (H c Hc). unfold scalar. lia.
Qed.

Lemma carriedb s : forallb xml_char s = true -> carried (fun c => c) s.
Proof. rewrite forallb_forall. intros H. apply Forall_forall. intros c Hc. split; [exact (H c Hc)|reflexivity]. Qed.

Example C27_exact_ex : Forall (comes_back (fun c => c)) [ex_way; ex_rel]
  /\ Forall (fun o => in_range o /\ m_version (s_meta o) <> None /\ strings o) [ex_way; ex_rel; forged].
Proof.
  assert (R : Forall (fun o => in_range o /\ m_version (s_meta o) <> None) [ex_node; ex_way; ex_rel]).
  { eapply Forall_impl; [|exact ex_objects]. intros o (A & B & _). easy. }
  inv R. inv H2. inv H4. clear H5.
  split.
  - apply Forall_cons; [|apply Forall_cons; [|apply Forall_nil]]; (split; [exact I|]);
      (split; [apply carriedb; reflexivity|]);
      (split; [repeat (apply Forall_cons; [split; apply carriedb; reflexivity|]); apply Forall_nil|]);
      (split; [repeat (apply Forall_cons; [apply carriedb; reflexivity|]); apply Forall_nil|]);
      (split; [apply carriedb; vm_compute; reflexivity|apply plainb_iff; vm_compute; reflexivity]).
  - apply Forall_cons; [|apply Forall_cons; [|apply Forall_cons; [|apply Forall_nil]]].
    + split; [apply H3|]. split; [apply H3|]. split; [apply valid_strb; reflexivity|].
      (split; [repeat (apply Forall_cons; [split; apply valid_strb; reflexivity|]); apply Forall_nil|]);
      (split; [repeat (apply Forall_cons; [apply valid_strb; reflexivity|]); apply Forall_nil|]);
      apply valid_strb; vm_compute; reflexivity.
    + split; [apply H2|]. split; [apply H2|]. split; [apply valid_strb; reflexivity|].
      (split; [repeat (apply Forall_cons; [split; apply valid_strb; reflexivity|]); apply Forall_nil|]);
      (split; [repeat (apply Forall_cons; [apply valid_strb; reflexivity|]); apply Forall_nil|]);
      apply valid_strb; vm_compute; reflexivity.
    + destruct C29_forged_ex as (_ & A & B & _). split; [exact A|]. split; [discriminate|exact B].
Qed.

(** The characters a text can have, one by one: a way whose user name is that character comes back
    exactly if it is one of the characters of XML 1.0 (production 2). *)
Theorem C29_characters : forall c, scalar c ->
  let o := SWay (SW (Meta 1 (Some 1) false None None None (Some [c])) [] []) in
  (Runs xml_next (xml_items (fun c => c) (out (fst (run_calls (xml_call (fun l => l)) (new_writer None) [CWrite o; CClose]))))
     [o] (Ret [])
   <-> c = 9 \/ c = 10 \/ c = 13 \/ 32 <= c <= 55295 \/ 57344 <= c <= 65533 \/ 65536 <= c <= 1114111).
Proof.
  intros c Hc o. pose proof (C27_exact (fun c => c) (fun c _ _ _ => eq_refl) (fun l => l) (fun l => Permutation_refl l) [CWrite o; CClose]) as X.
  cbn [written map] in X. change (as_read o) with o in X. rewrite X; [|reflexivity| |].
  - split.
    + intros H. inversion H as [|? ? K _]; subst. destruct K as (_ & K & _). cbn in K. inversion K as [|? ? [K' _] _]; subst.
      unfold xml_char in K'. lia.
    + intros H. apply Forall_cons; [|apply Forall_nil]. split; [exact I|]. split; [|split; [|split]]; cbn; try (now constructor).
      apply Forall_cons; [|apply Forall_nil]. split; [|reflexivity]. unfold xml_char. lia.
  - unfold good_header_calls. cbn. first [constructor|intros ? []|split; constructor].
  - apply Forall_cons; [|apply Forall_nil]. split; [|split; [discriminate|]].
    + unfold in_range, o, in_i64, in_u32. cbn. repeat (split; [first [exact I|lia]|]). apply Forall_nil.
    + split; [|split; [|split]]; cbn; try (now constructor).
Qed.
Print Assumptions C29_characters.
