(** C112: XML and OsmChange files of any layout. *)
From Coq Require Import String ZArith List Bool Lia.
From Coq Require Import ZifyBool ZifyNat.
From Verif Require Import Base Utf8 Obj SpecIter XmlToken XmlRead SpecXmlRead XmlReadFacts XmlReadBack PropsXml PropsXmlMore.
From Verif Require XmlExact.
From Verif Require Import SpecXmlRef XmlRef SpecXmlDoc XmlDoc XmlDocInv XmlDocRead.
Import ListNotations.
Open Scope Z_scope.

(** The bytes are a well-formed document (in UTF-8). *)
Definition well_formed (attr_ws : char -> char) (b : bytes) : Prop :=
  exists e t, document attr_ws e t /\ b = utf8 t.

Lemma legal_valid t : Forall legal t -> valid_str t.
Proof. apply Forall_impl. unfold legal, scalar. lia. Qed.

Lemma document_xml_items aw e t : document aw e t ->
  exists evs, xml_items aw (utf8 t) = map IEv (evs ++ [EOther []]) /\ strip evs = elem_events e.
Proof.
  intros H. unfold xml_items. rewrite utf8_decode_encode by (apply legal_valid, H). now apply document_items.
Qed.

Lemma no_err evs : ~ In IErr (map IEv evs).
Proof. intros H. apply in_map_iff in H as (e & H & _). discriminate. Qed.

(** The parser reports no error exactly for the well-formed documents. *)
Theorem C112_wellformed : forall attr_ws b, ~ In IErr (xml_items attr_ws b) <-> well_formed attr_ws b.
Proof.
  intros aw b. split.
  - unfold xml_items. destruct (utf8_decode b) as [s|] eqn:E.
    + intros H. apply utf8_decode_inv in E as [_ ->]. destruct (items_document aw s H) as (e & D). now exists e, s.
    + intros H. elim H. apply in_or_app. right. now left.
  - intros (e & t & D & ->). destruct (document_xml_items aw e t D) as (evs & -> & _). apply no_err.
Qed.
Print Assumptions C112_wellformed.

(** A text is the text of one tree. *)
Theorem C112_unique : forall attr_ws e1 e2 t, document attr_ws e1 t -> document attr_ws e2 t -> e1 = e2.
Proof.
  intros aw e1 e2 t H1 H2. apply document_items in H1 as (v1 & E1 & S1). apply document_items in H2 as (v2 & E2 & S2).
  rewrite E1 in E2. assert (v1 = v2).
  { assert (I : forall l l', map IEv l = map IEv l' -> l = l').
    { induction l as [|x l IH]; intros [|y l'] H; try discriminate; [reflexivity|]. injection H as -> H. f_equal. now apply IH. }
    apply I in E2. now apply app_inj_tail in E2 as [-> _]. }
  subst v2. apply tree_unique. congruence.
Qed.
Print Assumptions C112_unique.

Lemma runs_osc s l r : Runs xml_next s l r -> Runs osc_next s l r.
Proof. induction 1; [apply Runs_end|apply Runs_panic|eapply Runs_step]; rewrite ?osc_next_eq; eauto. Qed.

(** Both readers return the objects that the elements denote, in document order, up to
    the first element that denotes none; the whole file has been read exactly if
    there is no such element. *)
Theorem C112_objects : forall attr_ws e t, document attr_ws e t -> unnested e ->
  exists rest, Runs xml_next (xml_items attr_ws (utf8 t)) (first_objects (denoted e)) (Ret rest)
    /\ Runs osc_next (xml_items attr_ws (utf8 t)) (first_objects (denoted e)) (Ret rest)
    /\ (rest = [] <-> Forall (fun o => o <> None) (denoted e)).
Proof.
  intros aw e t D U. destruct (document_xml_items aw e t D) as (evs & -> & S).
  assert (Q : splits evs (denoted e)).
  { apply strip_splits. rewrite S. apply tree_splits; [exact U|]. destruct D as (_ & p & u & q & _ & _ & Hu & _).
    exact (proj1 (element_distinct aw) e u Hu). }
  destruct (runs_splits _ _ Q) as (rest & R & H). exists rest. split; [exact R|]. split; [now apply runs_osc|exact H].
Qed.
Print Assumptions C112_objects.

(** However a run over a file goes: a well-formed file never makes it panic, and it
    comes to the end of the file only if the file is well-formed. *)
Theorem C112_end : forall attr_ws b os r, Runs xml_next (xml_items attr_ws b) os r \/ Runs osc_next (xml_items attr_ws b) os r ->
  (well_formed attr_ws b -> r <> Panic) /\ (r = Ret [] -> well_formed attr_ws b).
Proof.
  intros aw b os r R.
  assert (R' : Runs xml_next (xml_items aw b) os r).
  { destruct R as [R|R]; [exact R|]. destruct (C70_iteration_ends (xml_items aw b)) as ((os' & r' & A & B) & _).
    destruct (Runs_det _ _ _ _ R _ _ B) as [-> ->]. exact A. }
  clear R. split.
  - intros W. apply C112_wellformed in W. destruct (proj2 (C70_iteration_ends (xml_items aw b)) W) as (os' & rest & A & _).
    destruct (Runs_det _ _ _ _ R' _ _ A) as [_ ->]. discriminate.
  - intros ->. apply C112_wellformed. intros I.
    assert (S : exists l, xml_items aw b = map IEv l ++ [IErr]).
    { unfold xml_items in *. destruct (utf8_decode b) as [s|]; [|now eexists]. unfold titems in *.
      destruct (p_mode (trun aw tstart s)), (p_stack (trun aw tstart s)), (p_rooted (trun aw tstart s)); try now eexists.
      exfalso. now apply no_err in I. }
    destruct S as (l & S). rewrite S in R'. now apply (XmlExact.runs_error os l []) in R'.
Qed.
Print Assumptions C112_end.

(** ** Layout does not matter *)

Lemma obj_strip n l r r' : strip r = strip r' -> obj_of_events (EStart n l :: r) = obj_of_events (EStart n l :: r').
Proof.
  intros E.
  assert (G : forall {A} (f : event -> option A), (forall t, f (EOther t) = None) ->
    filter_map f (EStart n l :: r) = filter_map f (EStart n l :: r')).
  { intros A f Hf. rewrite <- (strip_filter f (EStart n l :: r)), <- (strip_filter f (EStart n l :: r')) by exact Hf.
    cbn [strip filter elem_event]. fold (strip r). fold (strip r'). now rewrite E. }
  unfold obj_of_events, node_of, way_of, relation_of.
  assert (T : get_tags (EStart n l :: r) = get_tags (EStart n l :: r')) by now apply G.
  assert (N : get_nodes (EStart n l :: r) = get_nodes (EStart n l :: r')) by now apply G.
  assert (M : get_members (EStart n l :: r) = get_members (EStart n l :: r')) by now apply G.
  now rewrite T, N, M.
Qed.

Definition alike (push : bool) (acc acc' : list event) : Prop :=
  (push = false /\ acc = [] /\ acc' = []) \/
  (push = true /\ exists n l r r', acc = EStart n l :: r /\ acc' = EStart n l :: r' /\ strip r = strip r').

Lemma pull_strip evs : forall push acc acc', alike push acc acc' ->
  exists push' els els' r, xml_pull push acc (map IEv evs) = Ret (els, map IEv r)
    /\ xml_pull push acc' (map IEv (strip evs)) = Ret (els', map IEv (strip r)) /\ alike push' els els'.
Proof.
  induction evs as [|e evs IH]; intros push acc acc' H.
  - exists push, acc, acc', []. cbn. auto.
  - destruct e as [n l|n|t]; cbn [strip filter elem_event map xml_pull]; fold (strip evs).
    + apply IH. destruct H as [(-> & -> & ->)|(-> & n0 & l0 & r & r' & -> & -> & E)].
      * rewrite orb_false_r. destruct (obj_name n); [|now left]. right. split; [reflexivity|]. exists n, l, [], []. now repeat split.
      * rewrite orb_true_r. right. split; [reflexivity|]. exists n0, l0, (r ++ [EStart n l]), (r' ++ [EStart n l]). repeat split.
        now rewrite !strip_app, E.
    + assert (H' : alike push (if push then acc ++ [EEnd n] else acc) (if push then acc' ++ [EEnd n] else acc')).
      { destruct H as [(-> & -> & ->)|(-> & n0 & l0 & r & r' & -> & -> & E)]; [now left|].
        right. split; [reflexivity|]. exists n0, l0, (r ++ [EEnd n]), (r' ++ [EEnd n]). repeat split. now rewrite !strip_app, E. }
      destruct (obj_name n); [|now apply IH]. eexists push, _, _, evs. now repeat split.
    + apply IH. destruct H as [(-> & -> & ->)|(-> & n0 & l0 & r & r' & -> & -> & E)]; [now left|].
      right. split; [reflexivity|]. exists n0, l0, (r ++ [EOther t]), r'. repeat split. now rewrite strip_app, E, app_nil_r.
Qed.

Lemma next_strip evs : exists o r, xml_next (map IEv evs) = Ret (o, map IEv r) /\ xml_next (map IEv (strip evs)) = Ret (o, map IEv (strip r)).
Proof.
  destruct (pull_strip evs false [] []) as (push & els & els' & r & E1 & E2 & H); [now left|].
  unfold xml_next. rewrite E1, E2. cbn [obind]. exists (obj_of_events els), r. split; [reflexivity|].
  destruct H as [(_ & -> & ->)|(_ & n & l & a & b & -> & -> & E)]; [reflexivity|]. now rewrite (obj_strip n l a b E).
Qed.

Lemma runs_strip os : forall evs r, Runs xml_next (map IEv evs) os r ->
  exists r0, Runs xml_next (map IEv (strip evs)) os (Ret r0).
Proof.
  induction os as [|o os IH]; intros evs r R; destruct (next_strip evs) as (o' & r' & E1 & E2);
    inversion R as [s s' E|s E|s a s1 l0 r0 E R']; subst; rewrite E1 in E; try discriminate; injection E as -> <-.
  - eexists. apply Runs_end. exact E2.
  - destruct (IH _ _ R') as (r0 & R0). exists r0. eapply Runs_step; eassumption.
Qed.

(** Two texts of the same tree, with any amount of white space, comments and so on, any
    quotes and references, are read as the same objects - also if elements are nested
    or incomplete. *)
Theorem C112_layout : forall attr_ws1 attr_ws2 e t1 t2 os r, document attr_ws1 e t1 -> document attr_ws2 e t2 ->
  Runs xml_next (xml_items attr_ws1 (utf8 t1)) os r ->
  exists r', Runs xml_next (xml_items attr_ws2 (utf8 t2)) os (Ret r') /\ Runs osc_next (xml_items attr_ws2 (utf8 t2)) os (Ret r').
Proof.
  intros aw1 aw2 e t1 t2 os r D1 D2 R.
  destruct (document_xml_items aw1 e t1 D1) as (v1 & E1 & S1). destruct (document_xml_items aw2 e t2 D2) as (v2 & E2 & S2).
  rewrite E1 in R. apply runs_strip in R as (r1 & R1).
  destruct (proj2 (C70_iteration_ends (map IEv (v2 ++ [EOther []]))) (no_err _)) as (os' & r' & R2 & R2').
  rewrite E2. destruct (runs_strip _ _ _ R2) as (r2 & R3).
  rewrite strip_app, S1, <- S2, <- strip_app in R1. destruct (Runs_det _ _ _ _ R1 _ _ R3) as [-> _].
  exists r'. now split.
Qed.
Print Assumptions C112_layout.

(** A file with an XML declaration, comments, both kinds of quotes, references, CDATA,
    white space in tags, unknown elements and an incomplete element after the objects. *)
Definition C112_text : str :=
  lit "<?xml version='1.0'?>" ++ [10] ++ lit "<!-- a - b --><osm  generator = 'x&#x79;' >" ++ [10] ++
  lit "<bounds/> a &lt; b <create><node lon='2' id ='7'" ++ [9] ++ lit "lat='1.5' ><![CDATA[ <tag> ]] ]]><tag v='&#65;&amp;&quot;' k='n'></tag></node ></create>" ++
  lit "<?x ? > ?><way id='8'><nd ref='7'/><!----></way><way/></osm> <!-- - -->".
Definition C112_tree : elem :=
  El (lit "osm") [(lit "generator", lit "xy")]
    [El (lit "bounds") [] [];
     El (lit "create") [] [El (lit "node") [(lit "lon", lit "2"); (lit "id", lit "7"); (lit "lat", lit "1.5")]
       [El (lit "tag") [(lit "v", [65; 38; 34]); (lit "k", lit "n")] []]];
     El (lit "way") [(lit "id", lit "8")] [El (lit "nd") [(lit "ref", lit "7")] []];
     El (lit "way") [] []].

Example C112_ex : document (fun c => c) C112_tree C112_text /\ unnested C112_tree
  /\ denoted C112_tree =
      [Some (SNode (SN (Meta 7 None false None None None None) [(lit "n", [65; 38; 34])] (Some (15000000, 20000000))));
       Some (SWay (SW (Meta 8 None false None None None None) [] [7])); None].
Proof.
  split; [|split].
  - assert (N : ~ In IErr (titems (trun (fun c => c) tstart C112_text))) by (vm_compute; intuition discriminate).
    destruct (items_document (fun c => c) C112_text N) as (e & D). destruct (document_items _ _ _ D) as (evs & E & S).
    replace C112_tree with e; [exact D|]. apply tree_unique. rewrite <- S.
    assert (F : strip evs = strip (filter_map (fun i => match i with IEv e => Some e | IErr => None end) (titems (trun (fun c => c) tstart C112_text)))).
    { rewrite E. replace (filter_map _ (map IEv (evs ++ [EOther []]))) with (evs ++ [EOther []]) by (generalize (evs ++ [EOther []]); intros l0; induction l0 as [|x l0 IH]; [reflexivity|]; cbn; now rewrite <- IH).
      rewrite strip_app. cbn. now rewrite app_nil_r. }
    rewrite F. vm_compute. reflexivity.
  - assert (D : forall n, obj_name n = false -> ~ object_name n) by (intros n H I; apply object_name_iff in I; congruence).
    assert (O : forall n, obj_name n = true -> object_name n) by (intros n; apply object_name_iff).
    apply unnested_other; [now apply D|].
    repeat (apply Forall_cons); [apply unnested_other; [now apply D|constructor]| | | |constructor].
    + apply unnested_other; [now apply D|]. constructor; [|constructor]. apply unnested_object; [now apply O|].
      constructor; [|constructor]. constructor; [now apply D|constructor].
    + apply unnested_object; [now apply O|]. constructor; [|constructor]. constructor; [now apply D|constructor].
    + apply unnested_object; [now apply O|constructor].
  - vm_compute. reflexivity.
Qed.
