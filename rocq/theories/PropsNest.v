(** C115: XML files in which object elements are inside one another. *)
From Coq Require Import String ZArith List Bool Lia.
From Coq Require Import ZifyBool ZifyNat.
From Verif Require Import Base Utf8 Obj SpecIter XmlToken XmlRead SpecXmlRead XmlReadFacts XmlReadBack PropsXml PropsXmlMore.
From Verif Require Import SpecXmlRef XmlRef SpecXmlDoc XmlDoc XmlDocInv XmlDocRead PropsDoc.
Import ListNotations.
Open Scope Z_scope.

(** ** Specification *)

(** What the readers take the tags of a file to mean.  [cur] is the object element being
    read, with its attributes and what has been read of its content: it ends at the first
    end tag of an object element, whichever that is.  An end tag of an object element
    where none is being read means nothing. *)
Fixpoint readings (cur : option (str * list (str * str) * list event)) (evs : list event) : list (option sobj) :=
  match evs with
  | [] => []
  | e :: r =>
      match cur, e with
      | None, EStart n l => if object_nameb n then readings (Some (n, l, [])) r else readings None r
      | None, EEnd m => if object_nameb m then None :: readings None r else readings None r
      | Some (n, l, b), EEnd m =>
          if object_nameb m then object_of n l b :: readings None r else readings (Some (n, l, b ++ [e])) r
      | Some (n, l, b), _ => readings (Some (n, l, b ++ [e])) r
      | None, EOther _ => readings None r
      end
  end.

(** ** The readings of a tree *)

Definition shut (cur : option (str * list (str * str) * list event)) (e : event) : option (str * list (str * str) * list event) :=
  match cur, e with
  | None, EStart n l => if object_nameb n then Some (n, l, []) else None
  | None, _ => None
  | Some (n, l, b), EEnd m => if object_nameb m then None else Some (n, l, b ++ [e])
  | Some (n, l, b), _ => Some (n, l, b ++ [e])
  end.
(** What is being read after some events. *)
Definition after (cur : option (str * list (str * str) * list event)) (evs : list event) := fold_left shut evs cur.

Lemma readings_app evs : forall cur r, readings cur (evs ++ r) = readings cur evs ++ readings (after cur evs) r.
Proof.
  induction evs as [|e evs IH]; intros cur r; [reflexivity|]. cbn [app readings after fold_left shut].
  destruct cur as [[[n l] b]|], e as [m a|m|t]; cbn [shut]; try apply IH;
    destruct (object_nameb m); cbn [app]; rewrite ?IH; reflexivity.
Qed.
Lemma after_app a b cur : after cur (a ++ b) = after (after cur a) b.
Proof. unfold after. now rewrite fold_left_app. Qed.

Lemma after_end cur n : object_nameb n = true -> after cur [EEnd n] = None.
Proof. intros E. destruct cur as [[[a b] c]|]; cbn [after fold_left shut]; [now rewrite E|reflexivity]. Qed.
Lemma after_none : forall e, after None (elem_events e) = None.
Proof.
  fix IH 1. intros [n l kids]. cbn [elem_events].
  change (EStart n l :: flat_map elem_events kids ++ [EEnd n]) with ([EStart n l] ++ flat_map elem_events kids ++ [EEnd n]).
  rewrite !after_app.
  assert (K : after None (flat_map elem_events kids) = None).
  { induction kids as [|k kids IHk]; [reflexivity|]. cbn [flat_map]. rewrite after_app, IH. exact IHk. }
  destruct (object_nameb n) eqn:E.
  - now apply after_end.
  - change (after None [EStart n l]) with (if object_nameb n then Some (n, l, @nil event) else None). rewrite E, K. reflexivity.
Qed.
Lemma after_none_forest es : after None (flat_map elem_events es) = None.
Proof. induction es as [|e es IH]; [reflexivity|]. cbn [flat_map]. now rewrite after_app, after_none. Qed.

(** An element without objects is content; one with objects ends the object being read. *)
Fixpoint freeb (e : elem) : bool :=
  match e with El n l kids => negb (object_nameb n) && forallb freeb kids end.
Lemma freeb_iff : forall e, freeb e = true <-> free_of_objects e.
Proof.
  fix IH 1. intros [n l kids]. cbn [freeb]. rewrite andb_true_iff, negb_true_iff.
  assert (N : object_nameb n = false <-> ~ object_name n).
  { rewrite object_nameb_iff, object_name_iff. destruct (obj_name n); split; intuition congruence. }
  rewrite N. assert (K : forallb freeb kids = true <-> Forall free_of_objects kids).
  { induction kids as [|k kids IHk]; [split; [constructor|reflexivity]|]. cbn [forallb]. rewrite andb_true_iff, IH, IHk.
    split; [intros [A B]; now constructor|intros A; inversion A; now split]. }
  rewrite K. split; [intros [A B]; now constructor|intros A; inversion A; now split].
Qed.

Lemma free_after n l : forall e b, freeb e = true -> after (Some (n, l, b)) (elem_events e) = Some (n, l, b ++ elem_events e) /\ readings (Some (n, l, b)) (elem_events e) = [].
Proof.
  fix IH 1. intros [m a kids] b H. cbn [freeb elem_events] in *. apply andb_prop in H as [Hm Hk]. apply negb_true_iff in Hm.
  change (EStart m a :: flat_map elem_events kids ++ [EEnd m]) with ([EStart m a] ++ flat_map elem_events kids ++ [EEnd m]).
  assert (K : forall b, after (Some (n, l, b)) (flat_map elem_events kids) = Some (n, l, b ++ flat_map elem_events kids) /\ readings (Some (n, l, b)) (flat_map elem_events kids) = []).
  { clear b. induction kids as [|k kids IHk]; intros b; [cbn; now rewrite app_nil_r|]. cbn [forallb flat_map] in *. apply andb_prop in Hk as [H1 H2].
    destruct (IH k b H1) as [A B]. rewrite after_app, readings_app, A, B. destruct (IHk H2 (b ++ elem_events k)) as [C D].
    rewrite C, D, <- app_assoc. now split. }
  rewrite !after_app, !readings_app. change (after (Some (n, l, b)) [EStart m a]) with (Some (n, l, b ++ [EStart m a])).
  destruct (K (b ++ [EStart m a])) as [A B]. rewrite A, B. cbn [after fold_left shut readings]. rewrite Hm.
  split; [now rewrite <- !app_assoc|reflexivity].
Qed.

Lemma busy_after : forall e x, freeb e = false -> after (Some x) (elem_events e) = None.
Proof.
  fix IH 1. intros [m a kids] [[n l] b] H. cbn [freeb elem_events] in *.
  change (EStart m a :: flat_map elem_events kids ++ [EEnd m]) with ([EStart m a] ++ flat_map elem_events kids ++ [EEnd m]).
  rewrite !after_app. change (after (Some (n, l, b)) [EStart m a]) with (Some (n, l, b ++ [EStart m a])).
  assert (K : forall x, forallb freeb kids = false -> after (Some x) (flat_map elem_events kids) = None).
  { clear H. induction kids as [|k kids IHk]; intros [[n' l'] b'] Hk; [discriminate|]. cbn [forallb flat_map] in *. rewrite after_app.
    destruct (freeb k) eqn:E.
    - rewrite (proj1 (free_after n' l' k b' E)). apply IHk. exact Hk.
    - rewrite (IH k _ E). apply after_none_forest. }
  destruct (forallb freeb kids) eqn:E.
  - rewrite andb_true_r in H. apply negb_false_iff in H. now apply after_end.
  - rewrite (K _ eq_refl). reflexivity.
Qed.

Lemma content_after n l : forall kids b, forallb freeb kids = true ->
  after (Some (n, l, b)) (flat_map elem_events kids) = Some (n, l, b ++ flat_map elem_events kids) /\ readings (Some (n, l, b)) (flat_map elem_events kids) = [].
Proof.
  induction kids as [|k kids IHk]; intros b Hk; [cbn; now rewrite app_nil_r|]. cbn [forallb flat_map] in *. apply andb_prop in Hk as [H1 H2].
  destruct (free_after n l k b H1) as [A B]. rewrite after_app, readings_app, A, B. destruct (IHk (b ++ elem_events k) H2) as [C D].
  rewrite C, D, <- app_assoc. now split.
Qed.
Lemma busy_content : forall kids x, forallb freeb kids = false -> after (Some x) (flat_map elem_events kids) = None.
Proof.
  induction kids as [|k kids IHk]; intros [[n l] b] Hk; [discriminate|]. cbn [forallb flat_map] in *. rewrite after_app.
  destruct (freeb k) eqn:E.
  - rewrite (proj1 (free_after n l k b E)). apply IHk. exact Hk.
  - rewrite (busy_after k _ E). apply after_none_forest.
Qed.

Lemma readings_object n l kids : object_nameb n = true -> forallb freeb kids = true ->
  readings None (elem_events (El n l kids)) = [object_of n l (flat_map elem_events kids)].
Proof.
  intros Hn Hk. cbn [elem_events readings]. rewrite Hn, readings_app.
  destruct (content_after n l kids [] Hk) as [-> ->]. cbn [app readings]. now rewrite Hn.
Qed.

(** No nesting: the readings are what the elements denote. *)
Lemma readings_unnested : forall e, unnested e -> readings None (elem_events e) = denoted e.
Proof.
  fix IH 1. intros [n l kids] H. inversion H as [? ? ? Hn Hk|? ? ? Hn Hk]; subst.
  - apply object_name_iff in Hn. rewrite <- object_nameb_iff in Hn. rewrite readings_object; [cbn [denoted]; now rewrite Hn|exact Hn|].
    apply forallb_forall. intros k I. apply freeb_iff. rewrite Forall_forall in Hk. now apply Hk.
  - assert (On : object_nameb n = false) by (rewrite object_nameb_iff; destruct (obj_name n) eqn:E; [elim Hn; now apply object_name_iff|reflexivity]).
    cbn [elem_events readings denoted]. rewrite On, readings_app, after_none_forest. cbn [readings]. rewrite On, app_nil_r.
    clear H Hn. induction kids as [|k kids IHk]; [reflexivity|]. inversion Hk; subst. cbn [flat_map].
    rewrite readings_app, after_none, IH, IHk by assumption. reflexivity.
Qed.

(** Nesting: some piece means nothing. *)
Lemma readings_nested : forall e, Forall (fun o => o <> None) (readings None (elem_events e)) -> unnested e.
Proof.
  fix IH 1. intros [n l kids] H. cbn [elem_events readings] in H. destruct (object_nameb n) eqn:On.
  - rewrite readings_app in H. apply unnested_object; [apply object_name_iff; now rewrite <- object_nameb_iff|].
    destruct (forallb freeb kids) eqn:E.
    + rewrite forallb_forall in E. apply Forall_forall. intros k I. apply freeb_iff. now apply E.
    + rewrite (busy_content kids _ E) in H. cbn [readings] in H. rewrite On in H. apply Forall_app in H as [_ H].
      inversion H; subst. easy.
  - apply unnested_other; [intros Q; apply object_name_iff in Q; rewrite <- object_nameb_iff in Q; congruence|].
    rewrite readings_app in H. apply Forall_app in H as [H _]. clear On.
    induction kids as [|k kids IHk]; [constructor|]. cbn [flat_map] in H. rewrite readings_app, after_none in H. apply Forall_app in H as [H1 H2].
    constructor; auto.
Qed.

(** ** Text and comments between the tags *)

Definition cur_strip (c : option (str * list (str * str) * list event)) :=
  match c with Some (n, l, b) => Some (n, l, strip b) | None => None end.

Lemma readings_strip evs : forall cur, readings cur evs = readings (cur_strip cur) (strip evs).
Proof.
  induction evs as [|e evs IH]; intros cur; [reflexivity|].
  destruct cur as [[[n l] b]|], e as [m a|m|t]; cbn [strip filter elem_event readings cur_strip]; fold (strip evs).
  - rewrite IH. cbn [cur_strip]. now rewrite strip_app.
  - destruct (object_nameb m); rewrite IH; cbn [cur_strip]; [now rewrite strip_object|now rewrite strip_app].
  - rewrite IH. cbn [cur_strip]. now rewrite strip_app, app_nil_r.
  - destruct (object_nameb m); now rewrite IH.
  - destruct (object_nameb m); now rewrite IH.
  - now rewrite IH.
Qed.
Lemma after_strip evs : forall cur, cur_strip (after cur evs) = after (cur_strip cur) (strip evs).
Proof.
  induction evs as [|e evs IH]; intros cur; [reflexivity|]. cbn [after fold_left]. fold (after (shut cur e) evs). rewrite IH.
  destruct cur as [[[n l] b]|], e as [m a|m|t]; cbn [strip filter elem_event shut cur_strip]; fold (strip evs); cbn [after fold_left shut];
    try (destruct (object_nameb m)); cbn [cur_strip]; rewrite ?strip_app, ?app_nil_r; reflexivity.
Qed.

(** ** The readers *)

Definition pulled (cur : option (str * list (str * str) * list event)) : list event :=
  match cur with Some (n, l, b) => EStart n l :: b | None => [] end.
Definition next_from (cur : option (str * list (str * str) * list event)) (l : list XmlToken.item) : outcome (option sobj * list XmlToken.item) :=
  do (els, r) <- xml_pull (is_some cur) (pulled cur) l; Ret (obj_of_events els, r).

Definition cur_ok (cur : option (str * list (str * str) * list event)) : Prop :=
  match cur with Some (n, l, b) => object_nameb n = true /\ Forall distinct_attrs (EStart n l :: b) | None => True end.

Lemma run_readings evs : forall cur, Forall distinct_attrs evs -> cur_ok cur -> after cur evs = None ->
  let os := readings cur evs in
  (exists rest, next_from cur (map IEv (evs ++ [EOther []])) = Ret (None, rest) /\ first_objects os = []
      /\ (rest = [] <-> Forall (fun o => o <> None) os))
  \/ (exists o s l rest, next_from cur (map IEv (evs ++ [EOther []])) = Ret (Some o, s) /\ first_objects os = o :: l
      /\ Runs xml_next s l (Ret rest) /\ (rest = [] <-> Forall (fun o => o <> None) os)).
Proof.
  induction evs as [|e evs IH]; intros cur Hd Hc Ha; cbv zeta.
  { cbn in Ha. subst cur. left. exists []. repeat split. constructor. }
  pose proof (Forall_inv Hd) as Hd1. pose proof (Forall_inv_tail Hd) as Hd2. clear Hd.
  cbn [after fold_left] in Ha. fold (after (shut cur e) evs) in Ha.
  assert (Skip : forall cur', shut cur e = cur' -> cur_ok cur' -> readings cur (e :: evs) = readings cur' evs ->
    next_from cur (map IEv ((e :: evs) ++ [EOther []])) = next_from cur' (map IEv (evs ++ [EOther []])) ->
    (exists rest, next_from cur (map IEv ((e :: evs) ++ [EOther []])) = Ret (None, rest) /\ first_objects (readings cur (e :: evs)) = []
      /\ (rest = [] <-> Forall (fun o => o <> None) (readings cur (e :: evs))))
    \/ (exists o s l rest, next_from cur (map IEv ((e :: evs) ++ [EOther []])) = Ret (Some o, s) /\ first_objects (readings cur (e :: evs)) = o :: l
      /\ Runs xml_next s l (Ret rest) /\ (rest = [] <-> Forall (fun o => o <> None) (readings cur (e :: evs))))).
  { intros cur' E Ok Ep En. rewrite Ep, En. apply IH; [exact Hd2|exact Ok|now rewrite <- E]. }
  destruct cur as [[[n l] b]|].
  - destruct Hc as [Hn Hb].
    assert (Ok : cur_ok (Some (n, l, b ++ [e]))).
    { split; [exact Hn|]. inversion Hb; subst. constructor; [assumption|]. apply Forall_app. split; [assumption|now constructor]. }
    destruct e as [m a|m|t].
    + apply (Skip (Some (n, l, b ++ [EStart m a]))); try reflexivity; [exact Ok|]. unfold next_from. cbn [map app xml_pull is_some pulled].
      now rewrite orb_true_r.
    + destruct (object_nameb m) eqn:Em.
      * clear Skip. cbn [readings]. rewrite Em. cbn [shut] in Ha. rewrite Em in Ha.
        assert (E : next_from (Some (n, l, b)) (map IEv ((EEnd m :: evs) ++ [EOther []])) = Ret (object_of n l b, map IEv (evs ++ [EOther []]))).
        { unfold next_from. cbn [map app xml_pull is_some pulled]. rewrite <- object_nameb_iff, Em. cbn [obind].
          rewrite obj_of_events_spec.
          - do 2 f_equal. unfold object_of. rewrite !filter_map_app. cbn [filter_map tag_of ref_of member_of]. now rewrite !app_nil_r.
          - inversion Hb; subst. constructor; [assumption|]. apply Forall_app. split; [assumption|]. repeat constructor.
          - now rewrite <- object_nameb_iff. }
        rewrite E. destruct (object_of n l b) as [o|] eqn:Eo; cbn [first_objects].
        -- right. destruct (IH None Hd2 I Ha) as [(rest & A & B & C)|(o' & s & l' & rest & A & B & C & D)].
           ++ exists o, (map IEv (evs ++ [EOther []])), [], rest. rewrite B. repeat split; [now apply Runs_end|intros Q; constructor; [discriminate|now apply C]|intros Q; inversion Q; now apply C].
           ++ exists o, (map IEv (evs ++ [EOther []])), (o' :: l'), rest. rewrite B. repeat split; [eapply Runs_step; eassumption|intros Q; constructor; [discriminate|now apply D]|intros Q; inversion Q; now apply D].
        -- left. exists (map IEv (evs ++ [EOther []])). repeat split.
           ++ intros Q. apply map_eq_nil in Q. apply app_eq_nil in Q as [_ Q]. discriminate.
           ++ intros Q. inversion Q; subst. easy.
      * apply (Skip (Some (n, l, b ++ [EEnd m]))); [cbn [shut]; rewrite ?Em; reflexivity|exact Ok|cbn [readings]; now rewrite Em|].
        unfold next_from. cbn [map app xml_pull is_some pulled]. rewrite <- object_nameb_iff, Em. reflexivity.
    + apply (Skip (Some (n, l, b ++ [EOther t]))); try reflexivity. exact Ok.
  - destruct e as [m a|m|t].
    + destruct (object_nameb m) eqn:Em.
      * apply (Skip (Some (m, a, []))); [cbn [shut]; rewrite ?Em; reflexivity|split; [exact Em|now constructor]|cbn [readings]; now rewrite Em|].
        unfold next_from. cbn [map app xml_pull is_some pulled]. rewrite <- object_nameb_iff, Em. reflexivity.
      * apply (Skip None); [cbn [shut]; rewrite ?Em; reflexivity|exact I|cbn [readings]; now rewrite Em|].
        unfold next_from. cbn [map app xml_pull is_some pulled]. rewrite <- object_nameb_iff, Em. reflexivity.
    + destruct (object_nameb m) eqn:Em.
      * clear Skip. left. exists (map IEv (evs ++ [EOther []])). cbn [readings]. rewrite Em. unfold next_from. cbn [map app xml_pull is_some pulled].
        rewrite <- object_nameb_iff, Em. repeat split.
        -- intros Q. apply map_eq_nil in Q. apply app_eq_nil in Q as [_ Q]. discriminate.
        -- intros Q. inversion Q; subst. easy.
      * apply (Skip None); [cbn [shut]; rewrite ?Em; reflexivity|exact I|cbn [readings]; now rewrite Em|].
        unfold next_from. cbn [map app xml_pull is_some pulled]. rewrite <- object_nameb_iff, Em. reflexivity.
    + now apply (Skip None).
Qed.

(** ** C115 *)

(** What the readers return for any well-formed file, and when they get to its end. *)
Theorem C115_objects : forall attr_ws e t, document attr_ws e t ->
  exists rest, Runs xml_next (xml_items attr_ws (utf8 t)) (first_objects (readings None (elem_events e))) (Ret rest)
    /\ Runs osc_next (xml_items attr_ws (utf8 t)) (first_objects (readings None (elem_events e))) (Ret rest)
    /\ (rest = [] <-> Forall (fun o => o <> None) (readings None (elem_events e))).
Proof.
  intros aw e t D. destruct (document_xml_items aw e t D) as (evs & -> & S).
  assert (Hd : Forall distinct_attrs evs).
  { apply strip_forall; [exact (fun _ => I)|]. rewrite S. destruct D as (_ & p & u & q & _ & _ & Hu & _). exact (proj1 (element_distinct aw) e u Hu). }
  assert (Ha : after None evs = None).
  { pose proof (after_strip evs None) as Q. cbn [cur_strip] in Q. rewrite S, after_none in Q. destruct (after None evs) as [[[? ?] ?]|]; [discriminate|reflexivity]. }
  pose proof (readings_strip evs None) as P. cbn [cur_strip] in P. rewrite S in P. rewrite <- P.
  assert (R : exists rest, Runs xml_next (map IEv (evs ++ [EOther []])) (first_objects (readings None evs)) (Ret rest)
    /\ (rest = [] <-> Forall (fun o => o <> None) (readings None evs))).
  { destruct (run_readings evs None Hd I Ha) as [(rest & A & B & C)|(o & s & l & rest & A & B & C & F)]; exists rest; rewrite B; (split; [|assumption]).
    - now apply Runs_end.
    - eapply Runs_step; eassumption. }
  destruct R as (rest & R & H). exists rest. split; [exact R|]. split; [now apply runs_osc|exact H].
Qed.
Print Assumptions C115_objects.

(** A reader gets to the end of a well-formed file exactly if no object element is inside
    another one and all of them denote objects; it has then returned those objects. *)
Theorem C115_end : forall attr_ws e t os, document attr_ws e t ->
  (Runs xml_next (xml_items attr_ws (utf8 t)) os (Ret []) <-> unnested e /\ denoted e = map Some os)
  /\ (Runs osc_next (xml_items attr_ws (utf8 t)) os (Ret []) <-> unnested e /\ denoted e = map Some os).
Proof.
  assert (F : forall l, Forall (fun o : option sobj => o <> None) l -> l = map Some (first_objects l)).
  { induction 1 as [|[o|] l Ho _ IH]; [reflexivity| |easy]. cbn [first_objects map]. now rewrite <- IH. }
  assert (G : forall os : list sobj, first_objects (map Some os) = os /\ Forall (fun o => o <> None) (map Some os)).
  { induction os as [|o os [A B]]; [split; [reflexivity|constructor]|]. cbn [map first_objects]. split; [now rewrite A|constructor; [discriminate|exact B]]. }
  intros aw e t os D. destruct (C115_objects aw e t D) as (rest & R1 & R2 & H).
  assert (K : (first_objects (readings None (elem_events e)) = os /\ rest = []) <-> unnested e /\ denoted e = map Some os).
  { split.
    - intros [<- Hr]. apply H in Hr. pose proof (readings_nested e Hr) as U. split; [exact U|]. rewrite <- (readings_unnested e U). now apply F.
    - intros [U E]. rewrite (readings_unnested e U), E in *. destruct (G os) as [A B]. split; [exact A|]. now apply H. }
  rewrite <- K. split; split.
  - intros R. destruct (Runs_det _ _ _ _ R1 _ _ R) as [-> Q]. injection Q as ->. now split.
  - intros [<- ->]. exact R1.
  - intros R. destruct (Runs_det _ _ _ _ R2 _ _ R) as [-> Q]. injection Q as ->. now split.
  - intros [<- ->]. exact R2.
Qed.
Print Assumptions C115_end.

(** A way with a node inside: the way ends with the node, its later nodes are lost, and
    so is everything after the way. *)
Definition C115_text : str :=
  lit "<osm><way id='1'><node id='2' lat='1' lon='1'><tag k='a' v='b'/></node><nd ref='5'/></way><way id='3'/></osm>".
Definition C115_tree : elem :=
  El (lit "osm") []
    [El (lit "way") [(lit "id", lit "1")]
       [El (lit "node") [(lit "id", lit "2"); (lit "lat", lit "1"); (lit "lon", lit "1")] [El (lit "tag") [(lit "k", lit "a"); (lit "v", lit "b")] []];
        El (lit "nd") [(lit "ref", lit "5")] []];
     El (lit "way") [(lit "id", lit "3")] []].
Definition plain (id : Z) : meta := Meta id None false None None None None.

Example C115_ex : document (fun c => c) C115_tree C115_text
  /\ readings None (elem_events C115_tree) =
      [Some (SWay (SW (plain 1) [(lit "a", lit "b")] [])); None; Some (SWay (SW (plain 3) [] []))]
  /\ denoted C115_tree =
      [Some (SWay (SW (plain 1) [(lit "a", lit "b")] [5])); Some (SWay (SW (plain 3) [] []))].
Proof.
  split; [|split; vm_compute; reflexivity].
  assert (N : ~ In IErr (titems (trun (fun c => c) tstart C115_text))) by (vm_compute; intuition discriminate).
  destruct (items_document (fun c => c) C115_text N) as (e & D). destruct (document_items _ _ _ D) as (evs & E & S).
  replace C115_tree with e; [exact D|]. apply tree_unique. rewrite <- S.
  assert (F : strip evs = strip (filter_map (fun i => match i with IEv e => Some e | IErr => None end) (titems (trun (fun c => c) tstart C115_text)))).
  { rewrite E. replace (filter_map _ (map IEv (evs ++ [EOther []]))) with (evs ++ [EOther []]) by (generalize (evs ++ [EOther []]); intros l0; induction l0 as [|x l0 IH]; [reflexivity|]; cbn; now rewrite <- IH).
    rewrite strip_app. cbn. now rewrite app_nil_r. }
  rewrite F. vm_compute. reflexivity.
Qed.

(** So a well-formed file whose object elements all denote objects can be cut short
    without an error. *)
Theorem C115_complete_refuted : exists e t os rest, document (fun c => c) e t
  /\ Forall (fun o => o <> None) (denoted e)
  /\ Runs xml_next (xml_items (fun c => c) (utf8 t)) os (Ret rest)
  /\ (length os < length (denoted e))%nat /\ rest <> [].
Proof.
  destruct C115_ex as (D & P & Q). destruct (C115_objects _ _ _ D) as (rest & R & _ & H).
  exists C115_tree, C115_text, (first_objects (readings None (elem_events C115_tree))), rest.
  split; [exact D|]. split; [rewrite Q; repeat (constructor; try discriminate)|]. split; [exact R|].
  rewrite P in *. rewrite Q. split; [cbn; lia|]. intros E. apply H in E. inversion E as [|? ? _ E1]; subst. inversion E1 as [|? ? E2 _]; subst. now apply E2.
Qed.
Print Assumptions C115_complete_refuted.
