(** Reading XML documents of any layout: from the events of a document to its
    objects. *)
From Coq Require Import String ZArith List Bool Lia.
From Coq Require Import ZifyBool ZifyNat.
From Verif Require Import Base Utf8 Obj SpecIter XmlToken XmlRead SpecXmlRead XmlReadFacts XmlReadBack PropsXml.
From Verif Require Import SpecXmlRef XmlRef SpecXmlDoc XmlDoc.
Import ListNotations.
Open Scope Z_scope.

(** ** A document's tree is determined by its events *)

Definition closes (l : list event) : Prop := match l with EStart _ _ :: _ | EOther _ :: _ => False | _ => True end.

Lemma forest_unique k : forall es1 es2 r1 r2, (length (flat_map elem_events es1 ++ r1) < k)%nat -> closes r1 -> closes r2 ->
  flat_map elem_events es1 ++ r1 = flat_map elem_events es2 ++ r2 -> es1 = es2 /\ r1 = r2.
Proof.
  induction k as [|k IH]; intros es1 es2 r1 r2 Hk H1 H2 E; [lia|].
  destruct es1 as [|[n l k1] es1], es2 as [|[n' l' k2] es2]; cbn [flat_map elem_events app] in *.
  - now split.
  - subst r1. destruct H1.
  - subst r2. destruct H2.
  - injection E as -> -> E. rewrite <- !app_assoc in E. cbn [app] in E.
    cbn [length] in Hk. rewrite <- !app_assoc in Hk. cbn [app] in Hk.
    apply IH in E as [-> E]; [|lia|exact I|exact I]. injection E as E.
    rewrite app_length in Hk. cbn [length] in Hk.
    apply IH in E as [-> ->]; [now split|lia|exact H1|exact H2].
Qed.

Lemma tree_unique e1 e2 : elem_events e1 = elem_events e2 -> e1 = e2.
Proof.
  intros E. destruct (forest_unique (S (length (elem_events e1))) [e1] [e2] [] []) as [H _]; cbn [flat_map closes]; auto.
  - rewrite !app_nil_r. lia.
  - now rewrite !app_nil_r.
  - now injection H.
Qed.

(** ** The elements of an unnested document *)

Lemma object_name_iff n : object_name n <-> obj_name n = true.
Proof.
  unfold object_name, obj_name, name_is. cbn [map In]. rewrite !orb_true_iff. split.
  - intros [<-|[<-|[<-|[]]]]; vm_compute; tauto.
  - intros [[H|H]|H]; apply str_eqb_eq in H as ->; tauto.
Qed.
Lemma object_nameb_iff n : object_nameb n = obj_name n.
Proof.
  unfold object_nameb, obj_name, name_is. cbn [map existsb]. rewrite orb_false_r. now rewrite orb_assoc.
Qed.

Lemma free_quiet : forall e, free_of_objects e -> Forall quiet (elem_events e).
Proof.
  fix IH 1. intros [n l kids] H. inversion H as [? ? ? Hn Hk]; subst. cbn [elem_events].
  assert (On : obj_name n = false) by (destruct (obj_name n) eqn:E; [elim Hn; now apply object_name_iff|reflexivity]).
  constructor; [split; [exact On|reflexivity]|]. apply Forall_app. split; [|constructor; [split; [reflexivity|exact On]|constructor]].
  clear H Hn On. induction kids as [|e kids IHk]; [constructor|]. inversion Hk; subst. cbn [flat_map]. apply Forall_app. split; auto.
Qed.

(** The events [evs] are those of the good elements [els], denoting [os], and then quiet ones. *)
Definition splits (evs : list event) (os : list (option sobj)) : Prop :=
  exists els post, evs = flat_map element_events els ++ post /\ Forall good_element els /\ Forall quiet post
    /\ map element_object els = os.

Lemma splits_quiet pre evs os : Forall quiet pre -> splits evs os -> splits (pre ++ evs) os.
Proof.
  intros Hp (els & post & -> & Hg & Hq & <-). destruct els as [|e els].
  - exists [], (pre ++ post). cbn. repeat split; try constructor. apply Forall_app. now split.
  - exists (Element (pre ++ el_pre e) (el_name e) (el_attrs e) (el_body e) :: els), post. inv Hg. repeat split.
    + cbn [flat_map]. unfold element_events at 3. cbn [el_pre el_name el_attrs el_body]. unfold element_events at 1. now rewrite <- !app_assoc.
    + constructor; [|assumption]. destruct H1 as (A & B & C & D). split; [|split; [exact B|split; [exact C|exact D]]].
      cbn [el_pre]. apply Forall_app. now split.
    + exact Hq.
Qed.

Lemma splits_app e1 o1 e2 o2 : splits e1 o1 -> splits e2 o2 -> splits (e1 ++ e2) (o1 ++ o2).
Proof.
  intros (els & post & -> & Hg & Hq & <-) H2. apply (splits_quiet _ _ _ Hq) in H2 as (els2 & post2 & E & Hg2 & Hq2 & <-).
  exists (els ++ els2), post2. split; [rewrite <- app_assoc, E, flat_map_app, app_assoc; reflexivity|].
  split; [apply Forall_app; now split|]. split; [exact Hq2|]. apply map_app.
Qed.

Lemma splits_nil pre : Forall quiet pre -> splits pre [].
Proof. intros H. exists [], pre. repeat split; auto. Qed.

Lemma tree_splits : forall e, unnested e -> Forall distinct_attrs (elem_events e) -> splits (elem_events e) (denoted e).
Proof.
  fix IH 1. intros [n l kids] H Hd. cbn [elem_events denoted] in *. rewrite object_nameb_iff.
  pose proof (Forall_inv Hd) as Hd1. pose proof (Forall_inv_tail Hd) as Hd2. apply Forall_app in Hd2 as [Hd2 _]. clear Hd.
  inversion H as [? ? ? Hn Hk|? ? ? Hn Hk]; subst.
  - pose proof Hn as Hn'. apply object_name_iff in Hn' as ->.
    exists [Element [] n l (flat_map elem_events kids)], []. cbn [flat_map]. unfold element_events, element_object. cbn [el_pre el_name el_attrs el_body app].
    rewrite !app_nil_r. split; [reflexivity|]. split; [|split; [constructor|reflexivity]].
    constructor; [|constructor]. split; [constructor|]. split; [exact Hn|]. cbn [el_pre el_name el_attrs el_body]. split; [|now constructor].
    assert (F : Forall quiet (flat_map elem_events kids)).
    { clear -Hk. induction Hk; [constructor|]. cbn [flat_map]. apply Forall_app. split; [now apply free_quiet|assumption]. }
    eapply Forall_impl; [|exact F]. now intros e [_ A].
  - assert (On : obj_name n = false) by (destruct (obj_name n) eqn:E; [elim Hn; now apply object_name_iff|reflexivity]). rewrite On.
    change (EStart n l :: flat_map elem_events kids ++ [EEnd n]) with ([EStart n l] ++ flat_map elem_events kids ++ [EEnd n]).
    apply splits_quiet; [constructor; [split; [exact On|reflexivity]|constructor]|].
    rewrite <- (app_nil_r (flat_map denoted kids)). apply splits_app; [|apply splits_nil; constructor; [split; [reflexivity|exact On]|constructor]].
    clear H Hn On Hd1. induction kids as [|e kids IHk]; [apply splits_nil; constructor|]. inversion Hk; subst. cbn [flat_map] in *.
    apply Forall_app in Hd2 as [Hd2 Hd3]. apply splits_app; auto.
Qed.

(** ** Putting text, comments and so on between the elements *)

Lemma strip_split evs : forall a b, strip evs = a ++ b -> exists a' b', evs = a' ++ b' /\ strip a' = a /\ strip b' = b.
Proof.
  induction evs as [|e evs IH]; intros a b E.
  - cbn in E. symmetry in E. apply app_eq_nil in E as [-> ->]. now exists [], [].
  - destruct (elem_event e) eqn:Ee.
    + cbn [strip filter] in E. rewrite Ee in E. destruct a as [|x a].
      * exists [], (e :: evs). repeat split. cbn [strip filter]. now rewrite Ee.
      * cbn [app] in E. injection E as <- E. destruct (IH a b E) as (a' & b' & -> & <- & <-). exists (e :: a'), b'. repeat split.
        cbn [strip filter]. now rewrite Ee.
    + cbn [strip filter] in E. rewrite Ee in E. destruct (IH a b E) as (a' & b' & -> & <- & <-). exists (e :: a'), b'. repeat split.
      cbn [strip filter]. now rewrite Ee.
Qed.

Lemma strip_cons evs x a : strip evs = x :: a -> exists o evs', evs = o ++ x :: evs' /\ strip o = [] /\ strip evs' = a.
Proof.
  induction evs as [|e evs IH]; intros E; [discriminate|]. cbn [strip filter] in E. destruct (elem_event e) eqn:Ee.
  - injection E as -> E. now exists [], evs.
  - destruct (IH E) as (o & evs' & -> & Ho & <-). exists (e :: o), evs'. repeat split. cbn [strip filter]. now rewrite Ee.
Qed.

Lemma strip_forall (Q : event -> Prop) evs : (forall t, Q (EOther t)) -> Forall Q (strip evs) -> Forall Q evs.
Proof.
  intros H. induction evs as [|e evs IH]; intros F; [constructor|]. destruct e; cbn [strip filter elem_event] in F.
  - inv F. constructor; auto.
  - inv F. constructor; auto.
  - constructor; auto.
Qed.
Lemma strip_quiet evs : Forall quiet (strip evs) -> Forall quiet evs.
Proof. apply strip_forall. now split. Qed.

Lemma strip_filter {A} (f : event -> option A) evs : (forall t, f (EOther t) = None) -> filter_map f (strip evs) = filter_map f evs.
Proof.
  intros H. induction evs as [|e evs IH]; [reflexivity|]. destruct e; cbn [strip filter elem_event filter_map]; fold (strip evs); rewrite ?H, ?IH; reflexivity.
Qed.

Lemma strip_object n l body : object_of n l (strip body) = object_of n l body.
Proof. unfold object_of. now rewrite !(strip_filter tag_of), !(strip_filter ref_of), !(strip_filter member_of). Qed.

Lemma strip_splits evs os : splits (strip evs) os -> splits evs os.
Proof.
  intros (els & post & E & Hg & Hq & Hm). revert evs os E Hm. induction Hg as [|e els He Hg IH]; intros evs os E Hm.
  - cbn in E, Hm. subst os. apply splits_nil. apply strip_quiet. now rewrite E.
  - cbn [flat_map map] in *. subst os. destruct He as (A & B & C & D).
    unfold element_events in E. rewrite <- !app_assoc in E. apply strip_split in E as (pre & r1 & -> & Epre & E).
    cbn [app] in E. apply strip_cons in E as (o1 & r2 & -> & Eo1 & E). rewrite <- !app_assoc in E.
    apply strip_split in E as (body & r3 & -> & Ebody & E). cbn [app] in E. apply strip_cons in E as (o2 & r4 & -> & Eo2 & E).
    replace (pre ++ o1 ++ EStart (el_name e) (el_attrs e) :: body ++ o2 ++ EEnd (el_name e) :: r4)
      with (element_events (Element (pre ++ o1) (el_name e) (el_attrs e) (body ++ o2)) ++ r4).
    2:{ unfold element_events. cbn [el_pre el_name el_attrs el_body]. now repeat (rewrite <- ?app_assoc; cbn [app]). }
    change (element_object e :: map element_object els) with ([element_object e] ++ map element_object els).
    assert (Eb : strip (body ++ o2) = el_body e) by (now rewrite strip_app, Ebody, Eo2, app_nil_r).
    apply splits_app; [|now apply IH].
    exists [Element (pre ++ o1) (el_name e) (el_attrs e) (body ++ o2)], []. cbn [flat_map]. rewrite !app_nil_r. split; [reflexivity|].
    split; [|split; [constructor|]].
    + constructor; [|constructor]. split; [|split; [exact B|split]]; cbn [el_pre el_name el_attrs el_body].
      * apply strip_quiet. now rewrite strip_app, Epre, Eo1, app_nil_r.
      * apply strip_forall; [reflexivity|]. rewrite Eb. exact C.
      * inv D. constructor; [assumption|]. apply strip_forall; [exact (fun _ => I)|]. now rewrite Eb.
    + cbn [map]. unfold element_object. cbn [el_name el_attrs el_body]. now rewrite <- strip_object, Eb.
Qed.

(** ** Reading *)

Lemma runs_splits evs os : splits evs os -> exists rest, Runs xml_next (map IEv (evs ++ [EOther []])) (first_objects os) (Ret rest)
  /\ (rest = [] <-> Forall (fun o => o <> None) os).
Proof.
  intros (els & post & -> & Hg & Hq & <-).
  assert (Hq' : Forall quiet (post ++ [EOther []])) by (apply Forall_app; split; [exact Hq|constructor; [now split|constructor]]).
  rewrite <- app_assoc. assert (N : post ++ [EOther []] <> []) by now destruct post.
  revert N Hq'. generalize (post ++ [EOther []]). clear post Hq. intros post N Hq.
  induction Hg as [|e els He Hg IH].
  - exists []. split; [|split; [constructor|reflexivity]]. apply Runs_end. now apply next_end.
  - destruct He as (A & B & C & D). cbn [flat_map map]. rewrite <- app_assoc, map_app.
    pose proof (proj1 (C31_element _ _ _ _ (map IEv (flat_map element_events els ++ post)) A B C D)) as E.
    fold (element_events e) in E. unfold element_object at 1 3.
    destruct (object_of (el_name e) (el_attrs e) (el_body e)) as [o|] eqn:Eo; cbn [first_objects].
    + destruct IH as (rest & R & Hr). exists rest. split; [eapply Runs_step; eassumption|]. rewrite Hr. split; intros F; [|now inv F].
      constructor; [discriminate|exact F].
    + exists (map IEv (flat_map element_events els ++ post)). split; [now apply Runs_end|]. split.
      * intros F. apply map_eq_nil in F. apply app_eq_nil in F as [_ F]. now elim N.
      * intros F. inversion F; subst. easy.
Qed.
