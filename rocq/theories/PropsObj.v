(** C13-C19, C21, C22, C57: objects. *)
From Coq Require Import String ZArith List Bool Lia.
From Verif Require Import Base Timestamp Obj SpecObj ObjFacts.
Import ListNotations.
Open Scope Z_scope.

(** ** C13 *)

(** String objects: any sequence of mutating calls on an object without tags. *)
Theorem C13_tags_are_a_map_string : forall o ps, s_tags o = [] ->
  let o' := s_ops o ps in
  (forall k, s_tag o' k = expected_tag ps k) /\
  (forall k, s_has_tag o' k = true <-> exists v, expected_tag ps k = Some v) /\
  NoDup (map fst (s_tags o')) /\
  (forall k v, In (k, v) (s_tags o') <-> expected_tag ps k = Some v) /\
  s_num_tags o' = length (s_tags o') /\
  (s_untagged o' = true <-> forall k, expected_tag ps k = None) /\
  s_tagged o' = negb (s_untagged o').
Proof.
  intros o ps H0. cbn zeta.
  destruct (tag_map_facts ps (s_tags o) H0) as (A & B & C & D). rewrite <- s_tags_ops in *.
  split; [intros k; rewrite s_tag_eq; apply A|].
  split; [intros k; unfold s_has_tag; rewrite s_tag_eq, A; apply is_some_iff|].
  split; [exact B|]. split; [exact C|]. split; [reflexivity|]. split; [|reflexivity].
  unfold s_untagged, s_num_tags. rewrite Nat.eqb_eq. exact D.
Qed.
Print Assumptions C13_tags_are_a_map_string.

(** Arc and Rc objects. *)
Theorem C13_tags_are_a_map_arc_rc : forall o ps, a_tags o = [] ->
  let o' := a_ops o ps in
  (forall k, a_tag o' k = expected_tag ps k) /\
  (forall k, a_has_tag o' k = true <-> exists v, expected_tag ps k = Some v) /\
  NoDup (map fst (a_tags o')) /\
  (forall k v, In (k, v) (a_tags o') <-> expected_tag ps k = Some v) /\
  a_num_tags o' = length (a_tags o') /\
  (a_untagged o' = true <-> forall k, expected_tag ps k = None) /\
  a_tagged o' = negb (a_untagged o').
Proof.
  intros o ps H0. cbn zeta.
  destruct (tag_map_facts ps (a_tags o) H0) as (A & B & C & D). rewrite <- a_tags_ops in *.
  split; [intros k; rewrite a_tag_eq; apply A|].
  split; [intros k; unfold a_has_tag; rewrite a_tag_eq, A; apply is_some_iff|].
  split; [exact B|]. split; [exact C|]. split; [apply a_num_tags_eq|]. split; [|reflexivity].
  rewrite a_untagged_eq, a_num_tags_eq, Nat.eqb_eq. exact D.
Qed.
Print Assumptions C13_tags_are_a_map_arc_rc.

Definition ex_meta : meta := Meta 7 (Some 3) false (Some 12) (Some (EpochNumber 1)) (Some 5) (Some (lit "u")).
Definition ex_ops : list op :=
  [SetTag (lit "highway") (lit "primary"); SetTag (lit "name") (lit "A"); SetUid None;
   SetTag (lit "name") (lit "B"); UnsetTag (lit "highway"); SetTag (lit "ref") (lit "")].
Example C13_ex : let o := SWay (SW ex_meta [] [1;2;1]) in
  s_tags o = [] /\ s_tags (s_ops o ex_ops) = [(lit "name", lit "B"); (lit "ref", lit "")]
  /\ expected_tag ex_ops (lit "name") = Some (lit "B") /\ expected_tag ex_ops (lit "highway") = None.
Proof. repeat split; reflexivity. Qed.
Example C13_ex_arc : let o := ANode (AN ex_meta None (Some (10, 20))) in
  a_tags o = [] /\ a_tags (a_ops o ex_ops) = [(lit "name", lit "B"); (lit "ref", lit "")].
Proof. repeat split; reflexivity. Qed.

(** ** C14 *)

Theorem C14_tag_updates_local_string : forall o k v,
  s_tag (s_op o (SetTag k v)) k = Some v /\
  (forall k', k' <> k -> s_tag (s_op o (SetTag k v)) k' = s_tag o k') /\
  (forall k', k' <> k -> s_tag (s_op o (UnsetTag k)) k' = s_tag o k').
Proof.
  intros o k v. rewrite !s_tag_eq, s_tags_op. cbn [tags_op].
  split; [apply tags_get_set_same|].
  split; intros k' H; rewrite !s_tag_eq, s_tags_op; cbn [tags_op];
    [now apply tags_get_set_other|now apply tags_get_unset_other].
Qed.
Print Assumptions C14_tag_updates_local_string.

Theorem C14_tag_updates_local_arc_rc : forall o k v,
  a_tag (a_op o (SetTag k v)) k = Some v /\
  (forall k', k' <> k -> a_tag (a_op o (SetTag k v)) k' = a_tag o k') /\
  (forall k', k' <> k -> a_tag (a_op o (UnsetTag k)) k' = a_tag o k').
Proof.
  intros o k v. rewrite !a_tag_eq, a_tags_op. cbn [tags_op].
  split; [apply tags_get_set_same|].
  split; intros k' H; rewrite !a_tag_eq, a_tags_op; cbn [tags_op];
    [now apply tags_get_set_other|now apply tags_get_unset_other].
Qed.
Print Assumptions C14_tag_updates_local_arc_rc.

Example C14_ex_dup : let o := SNode (SN ex_meta [(lit "a", lit "1"); (lit "b", lit "2"); (lit "a", lit "3")] None) in
  s_tags (s_op o (SetTag (lit "a") (lit "9"))) = [(lit "a", lit "9"); (lit "b", lit "2"); (lit "a", lit "3")]
  /\ s_tag (s_op o (UnsetTag (lit "a"))) (lit "b") = Some (lit "2").
Proof. split; reflexivity. Qed.

(** ** C15: false of the code for repeated keys *)

Theorem C15_unset_removes_refuted : exists o k, s_has_tag (s_op o (UnsetTag k)) k = true.
Proof.
  exists (SNode (SN ex_meta [(lit "a", lit "1"); (lit "a", lit "3")] None)), (lit "a"). reflexivity.
Qed.
Print Assumptions C15_unset_removes_refuted.
Theorem C15_unset_removes_arc_refuted : exists o k, a_has_tag (a_op o (UnsetTag k)) k = true.
Proof.
  exists (ANode (AN ex_meta (Some [(lit "a", lit "1"); (lit "a", lit "3")]) None)), (lit "a"). reflexivity.
Qed.
Print Assumptions C15_unset_removes_arc_refuted.

(** What holds: objects with distinct keys.  Missing: objects read from files
    that repeat a key. *)
Theorem C15_unset_removes_partial :
  (forall o k, NoDup (map fst (s_tags o)) -> s_has_tag (s_op o (UnsetTag k)) k = false) /\
  (forall o k, NoDup (map fst (a_tags o)) -> a_has_tag (a_op o (UnsetTag k)) k = false).
Proof.
  split; intros o k H.
  - unfold s_has_tag. rewrite s_tag_eq, s_tags_op. cbn [tags_op]. now rewrite tags_get_unset_same.
  - unfold a_has_tag. rewrite a_tag_eq, a_tags_op. cbn [tags_op]. now rewrite tags_get_unset_same.
Qed.
Print Assumptions C15_unset_removes_partial.
Example C15_ex : let o := SNode (SN ex_meta [(lit "a", lit "1"); (lit "b", lit "3")] None) in
  NoDup (map fst (s_tags o)) /\ s_has_tag o (lit "a") = true.
Proof. split; [|reflexivity]. repeat constructor; cbn; intuition discriminate. Qed.

(** ** C16 *)

Theorem C16_setters_string : forall o p f,
  (forall v, In (f, Some v) (writes (s_type o) p) -> s_get (s_op o p) f = v) /\
  (~ In f (map fst (writes (s_type o) p)) -> s_get (s_op o p) f = s_get o f).
Proof.
  intros o p f. destruct o as [[m t x]|[m t x]|[m t x]];
  (split; [intros v Hin; destruct p; cbn in Hin;
           repeat match type of Hin with
                  | _ \/ _ => destruct Hin as [Hin|Hin]; [try discriminate; injection Hin as <- <-; reflexivity|]
                  end; try contradiction
          |intros Hn; destruct p, f; cbn in *; try reflexivity; exfalso; apply Hn; auto]).
Qed.
Print Assumptions C16_setters_string.

Theorem C16_setters_arc_rc : forall o p f,
  (forall v, In (f, Some v) (writes (a_type o) p) -> a_get (a_op o p) f = v) /\
  (~ In f (map fst (writes (a_type o) p)) -> a_get (a_op o p) f = a_get o f).
Proof.
  intros o p f. destruct o as [[m t x]|[m t x]|[m t x]];
  (split; [intros v Hin; destruct p; cbn in Hin;
           repeat match type of Hin with
                  | _ \/ _ => destruct Hin as [Hin|Hin]; [try discriminate; injection Hin as <- <-; reflexivity|]
                  end; try contradiction
          |intros Hn; destruct p, f; cbn in *; try reflexivity; exfalso; apply Hn; auto]).
Qed.
Print Assumptions C16_setters_arc_rc.

(** strip_metadata spelled out. *)
Theorem C16_strip_metadata : forall o,
  let o' := s_op o StripMetadata in
  m_uid (s_meta o') = None /\ m_user (s_meta o') = None /\ m_changeset (s_meta o') = None /\
  m_id (s_meta o') = m_id (s_meta o) /\ m_version (s_meta o') = m_version (s_meta o) /\
  m_deleted (s_meta o') = m_deleted (s_meta o) /\ m_timestamp (s_meta o') = m_timestamp (s_meta o) /\
  s_tags o' = s_tags o /\ s_get o' FLatLon = s_get o FLatLon /\ s_get o' FNodes = s_get o FNodes /\
  s_get o' FMembers = s_get o FMembers /\ s_type o' = s_type o.
Proof. intros [[m t x]|[m t x]|[m t x]]; cbn; repeat split. Qed.
Print Assumptions C16_strip_metadata.

Example C16_ex : s_get (s_op (SWay (SW ex_meta [] [1])) (SetNodes [4;5])) FNodes = VNodes [4;5]
  /\ s_get (s_op (SWay (SW ex_meta [] [1])) (SetNodes [4;5])) FUser = VOptStr (Some (lit "u")).
Proof. split; reflexivity. Qed.

(** ** C17, C18 *)

Theorem C17_conversion_lossless : forall o, NoDup (map fst (a_tags o)) ->
  forall f, s_get (sobj_of_aobj o) f = a_get o f.
Proof. intros o H f. now apply convert_get. Qed.
Print Assumptions C17_conversion_lossless.
Example C17_ex : let o := ANode (AN ex_meta (Some [(lit "b", lit "1"); (lit "a", lit "2")]) (Some (3, 4))) in
  NoDup (map fst (a_tags o)) /\
  sobj_of_aobj o = SNode (SN ex_meta [(lit "b", lit "1"); (lit "a", lit "2")] (Some (3, 4))).
Proof. split; [|reflexivity]. repeat constructor; cbn; intuition discriminate. Qed.

Theorem C18_conversion_tag_refuted : exists o k, s_tag (sobj_of_aobj o) k <> a_tag o k.
Proof.
  exists (AWay (AW ex_meta [(lit "a", lit "1"); (lit "a", lit "2")] [])), (lit "a"). discriminate.
Qed.
Print Assumptions C18_conversion_tag_refuted.

(** What holds: after conversion the last value of a repeated key is found
    (before, the first), so lookups agree exactly for keys whose first and last
    values agree; all other fields are preserved always. *)
Theorem C18_conversion_tag_partial : forall o k,
  s_tag (sobj_of_aobj o) k = tags_get k (rev (a_tags o)) /\
  a_tag o k = tags_get k (a_tags o) /\
  forall f, f <> FTags -> s_get (sobj_of_aobj o) f = a_get o f.
Proof.
  intros o k. split; [|split; [apply a_tag_eq|]].
  - rewrite s_tag_eq. destruct o as [n|w|r]; cbn [sobj_of_aobj s_tags];
      unfold snode_of_anode, sway_of_away, srel_of_arel; cbn [sn_tags sw_tags sr_tags];
      rewrite convert_tag_last; destruct (tags_get k (rev _)); reflexivity.
  - intros f Hf. destruct o as [n|w|r]; cbn [sobj_of_aobj];
      unfold snode_of_anode, sway_of_away, srel_of_arel; rewrite meta_eta; destruct f; easy.
Qed.
Print Assumptions C18_conversion_tag_partial.

(** ** C19 *)

Theorem C19_is_closed : forall w,
  is_closed w = true <-> exists a, first_is (sw_nodes w) a /\ last_is (sw_nodes w) a.
Proof. exact is_closed_iff. Qed.
Print Assumptions C19_is_closed.

Theorem C19_is_area : forall w,
  is_area w = true <->
  (exists a, first_is (sw_nodes w) a /\ last_is (sw_nodes w) a) /\
  s_tag (SWay w) (lit "area") <> Some (lit "no").
Proof.
  intros w. unfold is_area. rewrite andb_true_iff, negb_true_iff, is_closed_iff. cbn [s_tag].
  destruct (tags_get (lit "area") (sw_tags w)) as [v|] eqn:E.
  - rewrite str_eqb_neq. intuition congruence.
  - intuition discriminate.
Qed.
Print Assumptions C19_is_area.
Example C19_ex : is_area (SW ex_meta [] [1;2;3;1]) = true
  /\ is_area (SW ex_meta [(lit "area", lit "no")] [1;2;1]) = false
  /\ is_closed (SW ex_meta [] []) = false /\ is_closed (SW ex_meta [] [1;2]) = false
  /\ is_closed (SW ex_meta [] [5]) = true.
Proof. repeat split; reflexivity. Qed.

(** ** C21 *)

Theorem C21_names_roundtrip : forall t,
  objtype_of_str (name_long t) = Some t /\
  objtype_of_str [name_short t] = Some t /\
  objtype_of_char (name_short t) = Some t.
Proof. intros []; repeat split. Qed.
Print Assumptions C21_names_roundtrip.

Theorem C21_names_exact : forall s t, objtype_of_str s = Some t <->
  match t with
  | TNode => s = lit "n" \/ s = lit "node"
  | TWay => s = lit "w" \/ s = lit "way"
  | TRelation => s = lit "r" \/ s = lit "relation" \/ s = lit "rel"
  end.
Proof.
  intros s t. unfold objtype_of_str. split.
  - destruct (str_eqb s (lit "n") || str_eqb s (lit "node")) eqn:E1.
    { intros [= <-]. rewrite orb_true_iff, !str_eqb_eq in E1. exact E1. }
    destruct (str_eqb s (lit "w") || str_eqb s (lit "way")) eqn:E2.
    { intros [= <-]. rewrite orb_true_iff, !str_eqb_eq in E2. exact E2. }
    destruct (str_eqb s (lit "r") || str_eqb s (lit "relation") || str_eqb s (lit "rel")) eqn:E3; [|easy].
    intros [= <-]. rewrite !orb_true_iff, !str_eqb_eq in E3. tauto.
  - destruct t; intros H; repeat (destruct H as [-> |H]; [reflexivity|]); now subst s.
Qed.
Print Assumptions C21_names_exact.

Theorem C21_chars_exact : forall c t, objtype_of_char c = Some t <-> c = name_short t.
Proof.
  intros c t. unfold objtype_of_char. split.
  - destruct (c =? chr "n") eqn:E1; [intros [= <-]; now apply Z.eqb_eq|].
    destruct (c =? chr "w") eqn:E2; [intros [= <-]; now apply Z.eqb_eq|].
    destruct (c =? chr "r") eqn:E3; [intros [= <-]; now apply Z.eqb_eq|easy].
  - intros ->. now destruct t.
Qed.
Print Assumptions C21_chars_exact.

(** ** C22 *)

(** For any reader (any state type and [next] function) that reaches its end:
    the filtered iterators yield the matching objects of the full iteration. *)
Theorem C22_filtered_iteration : forall St (next : St -> option sobj * St) fuel st l,
  drain next fuel st = Some l ->
  drain_filtered next into_node fuel st = Some (filter_map into_node l) /\
  drain_filtered next into_way fuel st = Some (filter_map into_way l) /\
  drain_filtered next into_relation fuel st = Some (filter_map into_relation l).
Proof. intros. repeat split; now apply drain_filtered_spec. Qed.
Print Assumptions C22_filtered_iteration.

(** ... and "matching" means the objects of that kind, each object having one. *)
Theorem C22_kinds : forall l o,
  (forall n, In n (filter_map into_node l) <-> In (SNode n) l) /\
  (forall w, In w (filter_map into_way l) <-> In (SWay w) l) /\
  (forall r, In r (filter_map into_relation l) <-> In (SRel r) l) /\
  ((is_node o = true /\ is_way o = false /\ is_relation o = false) \/
   (is_node o = false /\ is_way o = true /\ is_relation o = false) \/
   (is_node o = false /\ is_way o = false /\ is_relation o = true)).
Proof.
  intros l o. split; [|split; [|split]].
  1-3: intros x; induction l as [|[]]; cbn; split; intros H; try easy; intuition congruence.
  destruct o; auto.
Qed.
Print Assumptions C22_kinds.

Definition list_next (st : list sobj) : option sobj * list sobj :=
  match st with [] => (None, []) | a :: r => (Some a, r) end.
Example C22_ex : let w := SW ex_meta [] [1] in let n := SN ex_meta [] None in
  drain list_next 5 [SWay w; SNode n; SWay w] = Some [SWay w; SNode n; SWay w] /\
  drain_filtered list_next into_way 5 [SWay w; SNode n; SWay w] = Some [w; w].
Proof. split; reflexivity. Qed.

(** ** C57: equality of Arc/Rc objects versus what can be observed *)

(** A node whose only tag was set and removed differs (==) from the untouched
    node although every getter returns the same. *)
Theorem C57_arc_equality_observational_refuted : exists o ps,
  (forall f, a_get (a_ops o ps) f = a_get o f) /\ a_eqb (a_ops o ps) o = false.
Proof.
  exists (ANode (AN ex_meta None None)), [SetTag (lit "a") (lit "1"); UnsetTag (lit "a")].
  split; [intros []; reflexivity|reflexivity].
Qed.
Print Assumptions C57_arc_equality_observational_refuted.

Lemma opt_eqb_refl {A} (f : A -> A -> bool) : (forall a, f a a = true) -> forall o, opt_eqb f o o = true.
Proof. intros H [a|]; cbn; auto. Qed.
Lemma list_eqb_refl {A} (f : A -> A -> bool) : (forall a, f a a = true) -> forall l, list_eqb f l l = true.
Proof. intros H. induction l; cbn; [easy|]. now rewrite H, IHl. Qed.
Lemma meta_eqb_refl m : meta_eqb m m = true.
Proof.
  unfold meta_eqb. rewrite Z.eqb_refl, eqb_reflx, !(opt_eqb_refl Z.eqb Z.eqb_refl),
   (opt_eqb_refl str_eqb str_eqb_refl), opt_eqb_refl; [easy|].
  intros [s|t]; cbn; [apply str_eqb_refl|apply Z.eqb_refl].
Qed.
Lemma tag_eqb_refl a : tag_eqb a a = true.
Proof. unfold tag_eqb. now rewrite !str_eqb_refl. Qed.
Lemma latlon_eqb_refl a : latlon_eqb a a = true.
Proof. unfold latlon_eqb. now rewrite !Z.eqb_refl. Qed.
Lemma member_eqb_refl a : member_eqb a a = true.
Proof. destruct a as [[[] i] r]; cbn; now rewrite Z.eqb_refl, str_eqb_refl. Qed.

(** What holds: for String objects equal observations give ==.  Missing: Arc/Rc
    nodes (the optional tag list is compared as such). *)
Theorem C57_equality_observational_partial :
  (forall a b, (forall f, s_get a f = s_get b f) -> s_eqb a b = true) /\
  (forall a b, (forall f, a_get a f = a_get b f) -> a_type a <> TNode -> a_eqb a b = true).
Proof.
  split.
  - intros a b H.
    assert (a = b) as <-.
    { pose proof (H FId) as H1; pose proof (H FVersion) as H2; pose proof (H FDeleted) as H3;
      pose proof (H FChangeset) as H4; pose proof (H FTimestamp) as H5; pose proof (H FUid) as H6;
      pose proof (H FUser) as H7; pose proof (H FTags) as H8; pose proof (H FLatLon) as H9;
      pose proof (H FNodes) as H10; pose proof (H FMembers) as H11; pose proof (H FType) as H12.
      destruct a as [[[] ? ?]|[[] ? ?]|[[] ? ?]], b as [[[] ? ?]|[[] ? ?]|[[] ? ?]]; cbn in *; try easy; congruence. }
    destruct a as [[m t x]|[m t x]|[m t x]]; cbn;
      rewrite meta_eqb_refl, (list_eqb_refl tag_eqb tag_eqb_refl); cbn.
    + apply opt_eqb_refl, latlon_eqb_refl.
    + apply list_eqb_refl, Z.eqb_refl.
    + apply list_eqb_refl, member_eqb_refl.
  - intros a b H Ht.
    assert (a = b) as <-.
    { pose proof (H FId) as H1; pose proof (H FVersion) as H2; pose proof (H FDeleted) as H3;
      pose proof (H FChangeset) as H4; pose proof (H FTimestamp) as H5; pose proof (H FUid) as H6;
      pose proof (H FUser) as H7; pose proof (H FTags) as H8; pose proof (H FLatLon) as H9;
      pose proof (H FNodes) as H10; pose proof (H FMembers) as H11; pose proof (H FType) as H12.
      destruct a as [[[] ? ?]|[[] ? ?]|[[] ? ?]], b as [[[] ? ?]|[[] ? ?]|[[] ? ?]]; cbn in *; try easy; congruence. }
    destruct a as [[m t x]|[m t x]|[m t x]]; cbn in *; [easy| |];
      rewrite meta_eqb_refl, (list_eqb_refl tag_eqb tag_eqb_refl); cbn.
    + apply list_eqb_refl, Z.eqb_refl.
    + apply list_eqb_refl, member_eqb_refl.
Qed.
Print Assumptions C57_equality_observational_partial.
Example C57_ex : a_type (AWay (AW ex_meta [] [1;2])) <> TNode.
Proof. discriminate. Qed.
