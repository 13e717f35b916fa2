(** C70, C72: when the XML and OsmChange readers panic, and the blocks of an OsmChange
    file. *)
From Coq Require Import String ZArith List Bool Lia.
From Verif Require Import Base Ints Timestamp Obj SpecIter XmlToken XmlRead XmlReadBack SpecXmlRead XmlReadFacts PropsXml.
Import ListNotations.
Open Scope Z_scope.

(** ** C70 *)

Lemma pull_panic push acc l : xml_pull push acc l = Panic <->
  exists evs rest, l = map IEv evs ++ IErr :: rest /\ Forall (fun e => ends_obj e = false) evs.
Proof.
  revert push acc. induction l as [|[e|] l IH]; intros push acc; cbn [xml_pull].
  - split; [discriminate|]. intros ([|e evs] & rest & H & _); discriminate.
  - change (match e with EEnd n => obj_name n | _ => false end) with (ends_obj e). destruct (ends_obj e) eqn:E.
    + split; [discriminate|]. intros ([|e' evs] & rest & H & F); [discriminate|]. injection H as <- _. inv F. congruence.
    + rewrite IH. split.
      * intros (evs & rest & -> & F). exists (e :: evs), rest. split; [reflexivity|now constructor].
      * intros ([|e' evs] & rest & H & F); [discriminate|]. injection H as <- ->. inv F. now exists evs, rest.
  - split; [|reflexivity]. intros _. exists [], l. split; [reflexivity|constructor].
Qed.

Lemma pull_shrinks push acc l els r : xml_pull push acc l = Ret (els, r) -> (length r < length l)%nat \/ r = [] /\ l = [] \/ r = [].
Proof.
  revert push acc. induction l as [|[e|] l IH]; intros push acc H; cbn [xml_pull] in H.
  - injection H as <- <-. right. left. split; reflexivity.
  - destruct (match e with EEnd n => obj_name n | _ => false end).
    + injection H as <- <-. left. cbn. lia.
    + apply IH in H as [H|[(H1 & H2)|H]]; [left; cbn; lia|right; right; assumption|right; right; assumption].
  - discriminate.
Qed.

(** A call panics exactly when the parser reports an error before the end of the next
    node, way or relation: no content of a well-formed file makes it panic. *)
Theorem C70_panics_exactly : forall items,
  (xml_next items = Panic <-> exists evs rest, items = map IEv evs ++ IErr :: rest /\ Forall (fun e => ends_obj e = false) evs) /\
  (osc_next items = Panic <-> exists evs rest, items = map IEv evs ++ IErr :: rest /\ Forall (fun e => ends_obj e = false) evs).
Proof.
  intros items.
  assert (G : xml_next items = Panic <-> exists evs rest, items = map IEv evs ++ IErr :: rest /\ Forall (fun e => ends_obj e = false) evs).
  { rewrite <- (pull_panic false []). unfold xml_next. destruct (xml_pull false [] items) as [[els r]|]; cbn [obind]; split; try discriminate; reflexivity. }
  split; [exact G|]. rewrite osc_next_eq. exact G.
Qed.
Print Assumptions C70_panics_exactly.

Lemma next_shrinks l o r : xml_next l = Ret (Some o, r) -> (length r < length l)%nat.
Proof.
  unfold xml_next. destruct (xml_pull false [] l) as [[els r']|] eqn:E; [|discriminate]. cbn [obind]. intros H. injection H as H ->.
  destruct l as [|i l].
  - cbn in E. injection E as <- <-. vm_compute in H. discriminate.
  - apply pull_shrinks in E as [E|[(_ & E)|E]]; [exact E|discriminate|subst r; cbn; lia].
Qed.

(** Iterating always comes to an end, by None or by a panic, on any input; by None if the
    parser reports no error. *)
Theorem C70_iteration_ends : forall items,
  (exists os r, Runs xml_next items os r /\ Runs osc_next items os r) /\
  (~ In IErr items -> exists os rest, Runs xml_next items os (Ret rest) /\ Runs osc_next items os (Ret rest)).
Proof.
  assert (E : forall s l r, Runs xml_next s l r -> Runs osc_next s l r).
  { induction 1; [apply Runs_end|apply Runs_panic|eapply Runs_step]; rewrite ?osc_next_eq; eauto. }
  assert (G : forall n items, (length items < n)%nat -> exists os r, Runs xml_next items os r /\ (r = Panic -> In IErr items)).
  { induction n as [|n IH]; intros items Hn; [lia|]. destruct (xml_next items) as [[[o|] r]|] eqn:Ex.
    - pose proof (next_shrinks _ _ _ Ex) as Hs. destruct (IH r) as (os & r' & R & Hp); [lia|].
      exists (o :: os), r'. split; [eapply Runs_step; eassumption|]. intros Hr. specialize (Hp Hr).
      unfold xml_next in Ex. destruct (xml_pull false [] items) as [[els r0]|] eqn:El; [|discriminate]. cbn [obind] in Ex. injection Ex as _ ->.
      clear -El Hp. revert El. generalize false (@nil event). induction items as [|[e|] l IHl]; intros p a El; cbn [xml_pull] in El.
      + injection El as _ <-. contradiction.
      + destruct (match e with EEnd n => obj_name n | _ => false end); [injection El as _ ->; now right|right; eapply IHl; exact El].
      + now left.
    - exists [], (Ret r). split; [now apply Runs_end|discriminate].
    - exists [], Panic. split; [now apply Runs_panic|]. intros _. apply C70_panics_exactly in Ex as (evs & rest & -> & _).
      apply in_or_app. right. now left. }
  intros items. destruct (G (S (length items)) items) as (os & r & R & Hp); [lia|]. split.
  - exists os, r. split; [exact R|now apply E].
  - intros Hn. destruct r as [r|]; [|elim Hn; now apply Hp]. exists os, r. split; [exact R|now apply E].
Qed.
Print Assumptions C70_iteration_ends.
Lemma no_err_in l : forallb (fun i => match i with IErr => false | _ => true end) l = true -> ~ In IErr l.
Proof. intros G H. rewrite forallb_forall in G. specialize (G _ H). discriminate. Qed.
(** Values that are not numbers, an unknown member type, a tag without a key and an element inside another. *)
Example C70_example : let items := xml_items (fun c => c) (lit
    "<osm><node id='x' lat='y'/><way id='5' version='?'><tag v='1'/><nd ref='z'/><node id='1'/></way><relation id='3'><member type='q' ref='1'/></relation></osm>") in
  ~ In IErr items /\ length items = 18%nat.
Proof. cbv zeta. split; [apply no_err_in|]; vm_compute; reflexivity. Qed.

(** ** C72 *)

(** A block of an OsmChange file: <create>, <modify> or <delete> around elements. *)
Record block := Block { b_name : str; b_attrs : list (str * str); b_els : list element; b_tail : list event }.
Definition block_events (b : block) : list event :=
  EStart (b_name b) (b_attrs b) :: flat_map element_events (b_els b) ++ b_tail b ++ [EEnd (b_name b)].
Definition good_block (b : block) : Prop :=
  In (b_name b) (map lit ["create"; "modify"; "delete"]%string) /\ Forall good_element (b_els b) /\ Forall quiet (b_tail b).
Definition block_objects (b : block) : list (option sobj) := map element_object (b_els b).

Lemma next_quiet pre l : Forall quiet pre -> xml_next (map IEv pre ++ l) = xml_next l.
Proof. intros H. unfold xml_next. now rewrite pull_quiet. Qed.

Lemma runs_quiet pre l os r : Forall quiet pre -> Runs xml_next l os r -> Runs xml_next (map IEv pre ++ l) os r.
Proof. intros H R. inversion R; subst; [apply Runs_end|apply Runs_panic|eapply Runs_step; [|eassumption]]; now rewrite next_quiet. Qed.

Lemma runs_elements els : Forall good_element els -> forall os l os' r, map element_object els = map Some os ->
  Runs xml_next l os' r -> Runs xml_next (map IEv (flat_map element_events els) ++ l) (os ++ os') r.
Proof.
  induction 1 as [|e els He _ IH]; intros os l os' r Hm R.
  - destruct os; [exact R|discriminate].
  - destruct os as [|o os]; [discriminate|]. cbn [map] in Hm. injection Hm as Ho Hm. destruct He as (H1 & H2 & H3 & H4).
    cbn [flat_map app]. rewrite map_app, <- app_assoc. eapply Runs_step; [|apply IH; eassumption].
    etransitivity; [exact (proj1 (C31_element _ _ _ _ _ H1 H2 H3 H4))|]. unfold element_object in Ho. now rewrite Ho.
Qed.

(** What holds: the objects of all blocks come out, in file order. *)
Theorem C72_blocks_partial : forall pre blocks post os, Forall quiet pre -> Forall good_block blocks -> Forall quiet post ->
  flat_map block_objects blocks = map Some os ->
  Runs osc_next (map IEv (pre ++ flat_map block_events blocks ++ post)) os (Ret []).
Proof.
  assert (E : forall s l r, Runs xml_next s l r -> Runs osc_next s l r).
  { induction 1; [apply Runs_end|apply Runs_panic|eapply Runs_step]; rewrite ?osc_next_eq; eauto. }
  intros pre blocks post os Hp Hb Hq Ho. apply E. rewrite map_app. apply runs_quiet; [exact Hp|].
  revert os Ho. induction Hb as [|b bs (Hn & He & Ht) _ IH]; intros os Ho.
  - destruct os; [|discriminate]. cbn [flat_map app]. apply Runs_end. rewrite <- (app_nil_r (map IEv post)), next_quiet by exact Hq. reflexivity.
  - cbn [flat_map] in *.
    assert (S : exists o1 o2, os = o1 ++ o2 /\ block_objects b = map Some o1 /\ flat_map block_objects bs = map Some o2).
    { clear -Ho. revert os Ho. generalize (flat_map block_objects bs). induction (block_objects b) as [|x l IH]; intros r os Ho.
      - exists [], os. split; [reflexivity|]. split; [reflexivity|exact Ho].
      - destruct os as [|o os]; [discriminate|]. cbn [app map] in Ho. injection Ho as -> Ho. destruct (IH r os Ho) as (o1 & o2 & -> & E1 & E2).
        exists (o :: o1), o2. cbn. split; [reflexivity|]. split; [now rewrite E1|exact E2]. }
    destruct S as (o1 & o2 & -> & E1 & E2).
    assert (Q : quiet (EStart (b_name b) (b_attrs b)) /\ quiet (EEnd (b_name b))).
    { destruct Hn as [<-|[<-|[<-|[]]]]; repeat split. }
    destruct Q as (Q1 & Q2). unfold block_events. change (EStart (b_name b) (b_attrs b) :: ?l) with ([EStart (b_name b) (b_attrs b)] ++ l).
    rewrite <- !app_assoc, map_app. apply runs_quiet; [constructor; [exact Q1|constructor]|]. rewrite map_app.
    apply runs_elements; [exact He|exact E1|]. rewrite map_app. apply runs_quiet; [exact Ht|].
    rewrite map_app. apply runs_quiet; [constructor; [exact Q2|constructor]|]. apply IH. exact E2.
Qed.
Print Assumptions C72_blocks_partial.

(** What does not: an object in a <delete> block is reported as not deleted, unless its
    element says visible="false" (which the format does not ask for). *)
Theorem C72_delete_refuted : forall pre a0 post n a body rest o rest', Forall quiet pre -> Forall quiet post ->
  In n (map lit ["node"; "way"; "relation"]%string) -> obj_content body -> Forall distinct_attrs (EStart n a :: body) ->
  attribute a "visible" = None ->
  osc_next (map IEv ((pre ++ [EStart (lit "delete") a0] ++ post) ++ EStart n a :: body ++ [EEnd n]) ++ rest) = Ret (Some o, rest') ->
  m_deleted (s_meta o) = false.
Proof.
  intros pre a0 post n a body rest o rest' Hp Hq Hn Hb Hd Hv H.
  assert (Q : Forall quiet (pre ++ [EStart (lit "delete") a0] ++ post)).
  { apply Forall_app. split; [exact Hp|]. apply Forall_app. split; [|exact Hq]. constructor; [split; reflexivity|constructor]. }
  rewrite (proj2 (C31_element _ n a body rest Q Hn Hb Hd)) in H. injection H as H _. unfold object_of in H.
  destruct (opt_bind (attribute a "id") parse_i64) as [id|]; [|discriminate]. cbn [opt_bind] in H.
  assert (M : m_deleted (meta_of (attribute a) id) = false) by (unfold meta_of; cbn [m_deleted]; now rewrite Hv).
  destruct (str_eqb n (lit "node")).
  - destruct (attribute a "lat"); [|discriminate]. destruct (attribute a "lon"); [|discriminate]. injection H as <-. exact M.
  - destruct (str_eqb n (lit "way")); [injection H as <-; exact M|]. destruct (str_eqb n (lit "relation")); [|discriminate]. injection H as <-. exact M.
Qed.
Print Assumptions C72_delete_refuted.
Example C72_example : exists o rest, osc_next (xml_items (fun c => c) (lit
    "<osmChange version='0.6'><create><way id='4' version='1'/></create><delete><way id='5' version='2'/></delete></osmChange>"))
    = Ret (Some o, rest) /\ m_id (s_meta o) = 4 /\
  exists o' rest', osc_next rest = Ret (Some o', rest') /\ m_id (s_meta o') = 5 /\ m_deleted (s_meta o') = false.
Proof. do 2 eexists. split; [vm_compute; reflexivity|]. split; [reflexivity|]. do 2 eexists. split; [vm_compute; reflexivity|]. split; reflexivity. Qed.
