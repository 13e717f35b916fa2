(** C60, C107: XML files that end early and sources that fail. *)
From Coq Require Import String ZArith List Bool Lia.
From Coq Require Import ZifyBool ZifyNat.
From Verif Require Import Base Ints Timestamp Obj Utf8 SpecXml XmlWriteFacts XmlToken XmlRead SpecXmlRead
  SpecIter XmlRound XmlReadBack XmlTrunc XmlCut PropsWriter PropsXml.
Import ListNotations.
Open Scope Z_scope.

(** [j] is the number of objects of which the first [k] bytes of a file hold the
    whole text: [i] objects have arrived exactly if the opening and their texts
    fit into [k] bytes (and none need not arrive). *)
Definition arrived (opening : str) (os : list sobj) (k j : nat) : Prop :=
  (j <= length os)%nat /\
  forall i, (i <= length os)%nat ->
    ((i <= j)%nat <-> i = O \/ (length (utf8 (opening ++ flat_map obj_text (firstn i os))) <= k)%nat).

Lemma arrived_unique opening os k j j' : arrived opening os k j -> arrived opening os k j' -> j = j'.
Proof.
  intros [H1 H2] [H1' H2'].
  pose proof (H2 j H1) as A. pose proof (H2' j H1) as B.
  pose proof (H2 j' H1') as C. pose proof (H2' j' H1') as D. lia.
Qed.

(** ** C107 *)

Lemma xml_cut attr_ws : normalises attr_ws -> forall hs os,
  good_headers attr_ws hs -> Forall (xml_object attr_ws) os ->
  forall k, exists j, arrived (xml_opening hs) os k j
  /\ Runs xml_next (cut_items attr_ws (firstn k (utf8 (xml_document hs os)))) (map as_read (firstn j os)) Panic.
Proof.
  intros Hw hs os Hh Ho k. unfold xml_document.
  destruct (cut_runs attr_ws Hw (xml_opening hs) xml_closing (xml_pre hs) (lit "osm") [] os) with (k := k)
    as (j & H1 & H2 & H3).
  - now apply run_xml_opening.
  - unfold xml_pre; repeat constructor.
  - intros ev. exists [EOther [10]; EEnd (lit "osm")]. split; [|repeat constructor].
    change xml_closing with ([10] ++ lit "</" ++ lit "osm" ++ lit ">").
    rewrite run_end_tag; [reflexivity|repeat constructor|now apply xml_name_lit].
  - exact Ho.
  - exact (xml_document_valid attr_ws Hw hs os Hh Ho).
  - exists j. exact (conj (conj H1 H2) H3).
Qed.

Lemma osc_cut attr_ws : normalises attr_ws -> forall os,
  Forall (xml_object attr_ws) os ->
  forall k, exists j, arrived osc_opening os k j
  /\ Runs osc_next (cut_items attr_ws (firstn k (utf8 (osc_document os)))) (map as_read (firstn j os)) Panic.
Proof.
  intros Hw os Ho k. unfold osc_document.
  destruct (cut_runs attr_ws Hw osc_opening osc_closing osc_pre (lit "modify") [lit "osmChange"] os) with (k := k)
    as (j & H1 & H2 & H3).
  - now apply run_osc_opening.
  - unfold osc_pre; repeat constructor.
  - intros ev. exists [EOther [10]; EEnd (lit "modify"); EOther [10]; EEnd (lit "osmChange")].
    split; [|repeat constructor].
    change osc_closing with (([10] ++ lit "</" ++ lit "modify" ++ lit ">") ++ [10] ++ lit "</" ++ lit "osmChange" ++ lit ">").
    rewrite run_app, !run_end_tag; try (now apply xml_name_lit); try (repeat constructor).
    cbn [p_evs flush]. now rewrite <- app_assoc.
  - exact Ho.
  - exact (osc_document_valid attr_ws Hw os Ho).
  - exists j. refine (conj (conj H1 H2) _).
    assert (G : forall s l r, Runs xml_next s l r -> Runs osc_next s l r).
    { induction 1; [apply Runs_end|apply Runs_panic|eapply Runs_step]; rewrite ?osc_next_eq; eauto. }
    now apply G.
Qed.

(** A source that fails after any number of bytes of a written file, all of them
    included: the objects that have arrived are returned, then the reader
    panics. *)
Theorem C107_xml : forall attr_ws, normalises attr_ws -> forall hs os,
  good_headers attr_ws hs -> Forall (xml_object attr_ws) os ->
  forall k j, arrived (xml_opening hs) os k j ->
  Runs xml_next (cut_items attr_ws (firstn k (utf8 (xml_document hs os)))) (map as_read (firstn j os)) Panic.
Proof.
  intros w Hw hs os Hh Ho k j Hj. destruct (xml_cut w Hw hs os Hh Ho k) as (j' & H1 & H2).
  now rewrite (arrived_unique _ _ _ _ _ Hj H1).
Qed.
Print Assumptions C107_xml.

Theorem C107_osc : forall attr_ws, normalises attr_ws -> forall os,
  Forall (xml_object attr_ws) os ->
  forall k j, arrived osc_opening os k j ->
  Runs osc_next (cut_items attr_ws (firstn k (utf8 (osc_document os)))) (map as_read (firstn j os)) Panic.
Proof.
  intros w Hw os Ho k j Hj. destruct (osc_cut w Hw os Ho k) as (j' & H1 & H2).
  now rewrite (arrived_unique _ _ _ _ _ Hj H1).
Qed.
Print Assumptions C107_osc.

(** There is such a number for every [k]. *)
Theorem C107_number : forall opening os k, exists j, arrived opening os k j.
Proof.
  intros op os k.
  set (f := fun i => length (utf8 (op ++ flat_map obj_text (firstn i os)))).
  assert (M : forall i n, (f i <= f (i + n))%nat).
  { intros i n. unfold f. revert i. induction os as [|o l IH]; intros [|i].
    - cbn [Nat.add]. rewrite !firstn_nil. lia.
    - cbn [Nat.add]. rewrite !firstn_nil. lia.
    - cbn [firstn flat_map]. rewrite app_nil_r, utf8_app, app_length. lia.
    - cbn [Nat.add firstn flat_map]. specialize (IH i).
      rewrite !utf8_app, !app_length in *. lia. }
  assert (G : forall n, exists j, (j <= n)%nat /\ forall i, (i <= n)%nat -> ((i <= j)%nat <-> i = O \/ (f i <= k)%nat)).
  { induction n as [|n (j & H1 & H2)].
    - exists O. split; [lia|]. intros i Hi. lia.
    - destruct (Nat.le_gt_cases (f (S n)) k) as [L|L].
      + exists (S n). split; [lia|]. intros i Hi. split; [|lia]. intros _. right.
        specialize (M i (S n - i)%nat). replace (i + (S n - i))%nat with (S n) in M by lia. lia.
      + exists j. split; [lia|]. intros i Hi. destruct (Nat.eq_dec i (S n)) as [->|Ne]; [lia|].
        apply H2. lia. }
  destruct (G (length os)) as (j & H1 & H2). exists j. exact (conj H1 H2).
Qed.
Print Assumptions C107_number.

(** ** C60 *)

Lemma xml_cut_items attr_ws : normalises attr_ws -> forall hs os,
  good_headers attr_ws hs -> Forall (xml_object attr_ws) os ->
  forall k, (k < length (utf8 (xml_document hs os)))%nat ->
  xml_items attr_ws (firstn k (utf8 (xml_document hs os))) = cut_items attr_ws (firstn k (utf8 (xml_document hs os))).
Proof.
  intros Hw hs os Hh Ho.
  eapply xml_items_cut with (p := P (MCloseName (lit "osm")) [lit "osm"] true _);
    [now apply (xml_document_valid attr_ws)| |discriminate|discriminate].
  unfold xml_document. rewrite !removelast_app by (unfold xml_closing; try discriminate;
    intros H; apply app_eq_nil in H as [_ H]; discriminate).
  rewrite !run_app, run_xml_opening, run_objs by easy. reflexivity.
Qed.

Lemma osc_cut_items attr_ws : normalises attr_ws -> forall os,
  Forall (xml_object attr_ws) os ->
  forall k, (k < length (utf8 (osc_document os)))%nat ->
  xml_items attr_ws (firstn k (utf8 (osc_document os))) = cut_items attr_ws (firstn k (utf8 (osc_document os))).
Proof.
  intros Hw os Ho.
  eapply xml_items_cut with (p := P (MCloseName (lit "osmChange")) [lit "osmChange"] true _);
    [now apply (osc_document_valid attr_ws)| |discriminate|discriminate].
  unfold osc_document. rewrite !removelast_app by (unfold osc_closing; try discriminate;
    intros H; apply app_eq_nil in H as [_ H]; discriminate).
  rewrite !run_app, run_osc_opening, run_objs by easy.
  change (removelast osc_closing) with (([10] ++ lit "</" ++ lit "modify" ++ lit ">") ++ [10] ++ lit "</osmChange").
  rewrite run_app, run_end_tag; [|repeat constructor|apply xml_name_lit; reflexivity].
  reflexivity.
Qed.

(** Every proper prefix (in bytes) of a written file is noticed: the reader
    returns exactly the objects whose text is complete and then fails; it never
    reports a regular end. *)
Theorem C60_truncated_xml : forall attr_ws, normalises attr_ws -> forall hs os,
  good_headers attr_ws hs -> Forall (xml_object attr_ws) os ->
  forall k, (k < length (utf8 (xml_document hs os)))%nat -> forall j, arrived (xml_opening hs) os k j ->
  Runs xml_next (xml_items attr_ws (firstn k (utf8 (xml_document hs os)))) (map as_read (firstn j os)) Panic.
Proof. intros w Hw hs os Hh Ho k Hk j Hj. rewrite xml_cut_items by easy. now apply C107_xml. Qed.
Print Assumptions C60_truncated_xml.

Theorem C60_truncated_osc : forall attr_ws, normalises attr_ws -> forall os,
  Forall (xml_object attr_ws) os ->
  forall k, (k < length (utf8 (osc_document os)))%nat -> forall j, arrived osc_opening os k j ->
  Runs osc_next (xml_items attr_ws (firstn k (utf8 (osc_document os)))) (map as_read (firstn j os)) Panic.
Proof. intros w Hw os Ho k Hk j Hj. rewrite osc_cut_items by easy. now apply C107_osc. Qed.
Print Assumptions C60_truncated_osc.

(** A file of two objects that ends in the second one, right after the first
    and before the first. *)
Example C60_ex :
  let d := utf8 (osc_document [ex_node; ex_rel]) in
  let e := length (utf8 (osc_opening ++ obj_text ex_node)) in
  (e + 5 < length d)%nat
  /\ arrived osc_opening [ex_node; ex_rel] (e + 5) 1
  /\ arrived osc_opening [ex_node; ex_rel] e 1
  /\ arrived osc_opening [ex_node; ex_rel] (e - 1) 0
  /\ arrived osc_opening [ex_node; ex_rel] (length d) 2
  /\ Forall (xml_object (fun c => c)) [ex_node; ex_rel].
Proof.
  assert (A : forall k j, (j <= 2)%nat ->
    (forall i, (i <= 2)%nat -> ((i <= j)%nat <-> i = O \/ (length (utf8 (osc_opening ++ flat_map obj_text (firstn i [ex_node; ex_rel]))) <= k)%nat)) ->
    arrived osc_opening [ex_node; ex_rel] k j) by (intros k j H1 H2; exact (conj H1 H2)).
  intros d e. repeat match goal with |- _ /\ _ => split end.
  - vm_compute. lia.
  - apply A; [lia|]. intros [|[|[|i]]] Hi; vm_compute; lia.
  - apply A; [lia|]. intros [|[|[|i]]] Hi; vm_compute; lia.
  - apply A; [lia|]. intros [|[|[|i]]] Hi; vm_compute; lia.
  - apply A; [lia|]. intros [|[|[|i]]] Hi; vm_compute; lia.
  - pose proof ex_objects as H. inv H. inv H3. now repeat constructor.
Qed.
