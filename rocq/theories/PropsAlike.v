(** C121: XML files that say the same in another order or with additions. *)
From Coq Require Import String ZArith List Bool Lia Permutation.
From Verif Require Import Base Utf8 Ints Obj SpecIter XmlToken XmlRead SpecXmlRead XmlReadFacts XmlReadBack PropsXml PropsXmlMore.
From Verif Require Import SpecXmlRef XmlRef SpecXmlDoc XmlDoc XmlDocInv XmlDocRead PropsDoc PropsNest.
Import ListNotations.
Open Scope Z_scope.

(** ** Specification *)

(** The attributes and child elements of OSM XML. *)
Definition known : list str :=
  map lit ["id"; "version"; "visible"; "changeset"; "timestamp"; "uid"; "user"; "lat"; "lon"; "k"; "v"; "ref"; "type"; "role"]%string.
Definition parts : list str := map lit ["tag"; "nd"; "member"]%string.

(** The same known attributes, in any order; other attributes do not matter. *)
Definition same_attrs (l l' : list (str * str)) : Prop :=
  NoDup (map fst l) /\ NoDup (map fst l') /\
  let ours := filter (fun kv => existsb (str_eqb (fst kv)) known) in Permutation (ours l) (ours l').

(** Other names of elements mean nothing. *)
Definition other (n : str) : Prop := ~ object_name n /\ ~ In n parts.

(** An element that says nothing, nor do those in it. *)
Inductive idle : elem -> Prop :=
| idle_el n l kids : other n -> Forall idle kids -> idle (El n l kids).

(** A tag, nd or member element. *)
Definition part (n : str) (e : elem) : Prop :=
  exists l kids, e = El n l kids /\ In n parts /\ Forall idle kids.

(** The same elements with the same known attributes, up to the names and attributes of
    elements of no meaning (in which there may be objects), to elements that say nothing
    and to the order between tags, references and members (not among them). *)
Inductive alike : elem -> elem -> Prop :=
| alike_el n l l' kids kids' : same_attrs l l' -> alikes kids kids' -> alike (El n l kids) (El n l' kids')
| alike_other n n' l l' kids kids' : other n -> other n' -> alikes kids kids' -> alike (El n l kids) (El n' l' kids')
with alikes : list elem -> list elem -> Prop :=
| alikes_nil : alikes [] []
| alikes_cons e e' es es' : alike e e' -> alikes es es' -> alikes (e :: es) (e' :: es')
| alikes_drop e es es' : idle e -> alikes es es' -> alikes (e :: es) es'
| alikes_add e es es' : idle e -> alikes es es' -> alikes es (e :: es')
| alikes_swap n1 n2 e1 e2 es es' : part n1 e1 -> part n2 e2 -> n1 <> n2 -> alikes es es' -> alikes (e1 :: e2 :: es) (e2 :: e1 :: es')
| alikes_trans a b c : alikes a b -> alikes b c -> alikes a c.

(** ** Proof *)

Lemma attribute_in l k v : NoDup (map fst l) -> attribute l k = Some v <-> In (lit k, v) l.
Proof.
  induction l as [|[a b] l IH]; cbn [map fst attribute]; intros N; [split; [discriminate|intros []]|].
  inversion N as [|? ? N1 N2]; subst. destruct (str_eqb a (lit k)) eqn:E.
  - apply str_eqb_eq in E. subst a. split.
    + intros [= ->]. now left.
    + intros [[= ->]|H]; [reflexivity|]. exfalso. apply N1. apply (in_map fst) in H. exact H.
  - rewrite (IH N2). split; [now right|]. intros [[= -> _]|H]; [|exact H]. now rewrite str_eqb_refl in E.
Qed.
Lemma same_attribute l l' k : same_attrs l l' -> In (lit k) known -> attribute l k = attribute l' k.
Proof.
  intros (N & N' & P) K. cbv zeta in P.
  assert (G : forall v, In (lit k, v) l <-> In (lit k, v) l').
  { intros v. assert (F : forall m, In (lit k, v) m <-> In (lit k, v) (filter (fun kv => existsb (str_eqb (fst kv)) known) m)).
    { intros m. rewrite filter_In. split; [|tauto]. intros H. split; [exact H|]. apply existsb_exists. exists (lit k). split; [exact K|apply str_eqb_refl]. }
    rewrite (F l), (F l'). split; apply Permutation_in; [exact P|now apply Permutation_sym]. }
  destruct (attribute l k) as [v|] eqn:A.
  - symmetry. apply attribute_in; [exact N'|]. apply G. now apply attribute_in.
  - destruct (attribute l' k) as [v|] eqn:B; [|reflexivity]. apply attribute_in in B; [|exact N'].
    apply G in B. apply attribute_in in B; [congruence|exact N].
Qed.

(** Two states of reading that have the same meaning. *)
Definition same_body (b b' : list event) : Prop :=
  filter_map tag_of b = filter_map tag_of b' /\ filter_map ref_of b = filter_map ref_of b' /\ filter_map member_of b = filter_map member_of b'.
Definition agree (l l' : list (str * str)) : Prop := forall k, In (lit k) known -> attribute l k = attribute l' k.
Definition same_cur (c c' : option (str * list (str * str) * list event)) : Prop :=
  match c, c' with
  | None, None => True
  | Some (n, l, b), Some (n', l', b') => n = n' /\ agree l l' /\ same_body b b'
  | _, _ => False
  end.
Definition same_events (a a' : list event) : Prop := forall c c', same_cur c c' ->
  readings c a = readings c' a' /\ same_cur (after c a) (after c' a').

Lemma same_cur_refl c : same_cur c c.
Proof. destruct c as [[[n l] b]|]; [|exact I]. split; [reflexivity|]. split; [now intros k|]. now split. Qed.
Lemma same_events_trans a b c : same_events a b -> same_events b c -> same_events a c.
Proof.
  intros H1 H2 x y H. destruct (H1 x x (same_cur_refl x)) as [A _]. destruct (H1 x y H) as [B B2]. destruct (H2 y y (same_cur_refl y)) as [C C2].
  split; [congruence|].
  destruct (H1 x y H) as [_ P]. destruct (after x a) as [[[n l] d]|], (after y b) as [[[n' l'] d']|], (after y c) as [[[n'' l''] d'']|]; cbn in *; try easy.
  destruct P as (-> & P1 & P2 & P3 & P4), C2 as (-> & Q1 & Q2 & Q3 & Q4). split; [reflexivity|]. split; [intros k K; rewrite P1, Q1; easy|].
  repeat split; congruence.
Qed.
Lemma same_events_app a a' b b' : same_events a a' -> same_events b b' -> same_events (a ++ b) (a' ++ b').
Proof.
  intros H1 H2 c c' H. destruct (H1 c c' H) as [A A']. destruct (H2 _ _ A') as [B B'].
  rewrite !readings_app, !after_app. split; [congruence|exact B'].
Qed.
Lemma same_events_nil : same_events [] [].
Proof. intros c c' H. split; [reflexivity|exact H]. Qed.

Lemma same_body_app a a' b b' : same_body a a' -> same_body b b' -> same_body (a ++ b) (a' ++ b').
Proof. intros (A & B & C) (A' & B' & C'). unfold same_body. rewrite !filter_map_app. repeat split; congruence. Qed.

Ltac known_attr := cbn; repeat (first [left; reflexivity | right]).
Lemma same_start n l l' : agree l l' -> same_body [EStart n l] [EStart n l'].
Proof.
  intros H. unfold same_body. cbn [filter_map tag_of ref_of member_of].
  rewrite (H "k"%string), (H "v"%string), (H "ref"%string), (H "type"%string), (H "role"%string) by known_attr. easy.
Qed.
Lemma same_object n l l' b b' : agree l l' -> same_body b b' -> object_of n l b = object_of n l' b'.
Proof.
  intros H (B1 & B2 & B3). unfold object_of, meta_of. rewrite B1, B2, B3.
  rewrite (H "id"%string), (H "version"%string), (H "visible"%string), (H "changeset"%string), (H "timestamp"%string), (H "uid"%string),
    (H "user"%string), (H "lat"%string), (H "lon"%string) by known_attr. reflexivity.
Qed.

Lemma start_same n l l' : agree l l' -> same_events [EStart n l] [EStart n l'].
Proof.
  intros H c c' S. destruct c as [[[m a] b]|], c' as [[[m' a'] b']|]; cbn [same_cur] in S; try easy; cbn [readings after fold_left shut].
  - split; [reflexivity|]. cbn [same_cur]. destruct S as (-> & A & B). split; [reflexivity|]. split; [exact A|].
    apply same_body_app; [exact B|now apply same_start].
  - destruct (object_nameb n); (split; [reflexivity|]); cbn; [|exact I]. repeat split; exact H.
Qed.
Lemma end_same n : same_events [EEnd n] [EEnd n].
Proof.
  intros c c' S. destruct c as [[[m a] b]|], c' as [[[m' a'] b']|]; cbn [same_cur] in S; try easy; cbn [readings after fold_left shut].
  - destruct S as (-> & A & B). destruct (object_nameb n).
    + split; [|exact I]. f_equal. now apply same_object.
    + split; [reflexivity|]. cbn [same_cur]. split; [reflexivity|]. split; [exact A|]. apply same_body_app; [exact B|]. now repeat split.
Qed.

(** Events in which no object begins or ends. *)
Definition within (e : event) : Prop := match e with EStart n _ | EEnd n => object_nameb n = false | EOther _ => True end.
Lemma within_readings evs : Forall within evs -> forall c, readings c evs = [] /\
  after c evs = match c with None => None | Some (n, l, b) => Some (n, l, b ++ evs) end.
Proof.
  induction 1 as [|e evs He H IH]; intros c.
  - split; [reflexivity|]. destruct c as [[[n l] b]|]; cbn; [now rewrite app_nil_r|reflexivity].
  - destruct c as [[[n l] b]|], e as [m a|m|t]; cbn [within] in He; cbn [readings after fold_left shut]; rewrite ?He.
    + destruct (IH (Some (n, l, b ++ [EStart m a]))) as [A B]. split; [exact A|]. unfold after in B. rewrite B, <- app_assoc. reflexivity.
    + destruct (IH (Some (n, l, b ++ [EEnd m]))) as [A B]. split; [exact A|]. unfold after in B. rewrite B, <- app_assoc. reflexivity.
    + destruct (IH (Some (n, l, b ++ [EOther t]))) as [A B]. split; [exact A|]. unfold after in B. rewrite B, <- app_assoc. reflexivity.
    + exact (IH None).
    + exact (IH None).
    + exact (IH None).
Qed.
Lemma within_same a a' : Forall within a -> Forall within a' -> same_body a a' -> same_events a a'.
Proof.
  intros H H' B c c' S. destruct (within_readings a H c) as [-> ->]. destruct (within_readings a' H' c') as [-> ->]. split; [reflexivity|].
  destruct c as [[[m l] b]|], c' as [[[m' l'] b']|]; cbn [same_cur] in *; try easy. destruct S as (-> & A & C).
  split; [reflexivity|]. split; [exact A|]. now apply same_body_app.
Qed.

Lemma not_object n : ~ object_name n -> object_nameb n = false.
Proof.
  intros H. destruct (object_nameb n) eqn:E; [|reflexivity]. elim H. unfold object_nameb in E. apply existsb_exists in E as (x & I & E).
  apply str_eqb_eq in E. now subst.
Qed.
Lemma not_part n s : ~ In n parts -> In (lit s) parts -> str_eqb n (lit s) = false.
Proof. intros H I. apply str_eqb_neq. intros ->. now apply H. Qed.
Lemma idle_events : forall e, idle e -> Forall within (elem_events e) /\ same_body (elem_events e) [].
Proof.
  fix IH 1. intros [n l kids] H. inversion H as [n0 l0 k0 [Ho Hp] Hk]; subst.
  assert (K : Forall within (flat_map elem_events kids) /\ same_body (flat_map elem_events kids) []).
  { clear H. induction kids as [|k kids IHk]; [split; [constructor|now repeat split]|]. cbn [flat_map].
    inversion Hk as [|? ? H1 H2]; subst. destruct (IH k H1) as [A B]. destruct (IHk H2) as [C D]. split; [now apply Forall_app|].
    now apply (same_body_app _ [] _ []). }
  destruct K as [K1 K2]. cbn [elem_events]. split.
  - constructor; [now apply not_object|]. apply Forall_app. split; [exact K1|]. constructor; [now apply not_object|constructor].
  - change (EStart n l :: flat_map elem_events kids ++ [EEnd n]) with ([EStart n l] ++ flat_map elem_events kids ++ [EEnd n]).
    apply (same_body_app _ [] _ []); [|apply (same_body_app _ [] _ []); [exact K2|now repeat split]].
    unfold same_body. cbn [filter_map tag_of ref_of member_of].
    rewrite (not_part n "tag"), (not_part n "nd"), (not_part n "member") by (assumption || known_attr). easy.
Qed.
Lemma other_tags n l : other n -> Forall within [EStart n l; EEnd n] /\ same_body [EStart n l] [] /\ same_body [EEnd n] [].
Proof.
  intros [Ho Hp]. apply not_object in Ho. split; [repeat constructor; exact Ho|]. split; [|now repeat split].
  unfold same_body. cbn [filter_map tag_of ref_of member_of].
  rewrite (not_part n "tag"), (not_part n "nd"), (not_part n "member") by (assumption || known_attr). easy.
Qed.
Lemma part_events n e : part n e -> Forall within (elem_events e) /\ exists l, same_body (elem_events e) [EStart n l].
Proof.
  intros (l & kids & -> & I & Hk).
  assert (K : Forall within (flat_map elem_events kids) /\ same_body (flat_map elem_events kids) []).
  { induction Hk as [|k kids H1 H2 IHk]; [split; [constructor|now repeat split]|]. cbn [flat_map].
    destruct (idle_events k H1) as [A B]. destruct IHk as [C D]. split; [now apply Forall_app|]. now apply (same_body_app _ [] _ []). }
  destruct K as [K1 K2].
  assert (O : object_nameb n = false) by (cbn in I; repeat destruct I as [<-|I]; try reflexivity; destruct I).
  cbn [elem_events]. split.
  - constructor; [exact O|]. apply Forall_app. split; [exact K1|]. constructor; [exact O|constructor].
  - exists l. change (EStart n l :: flat_map elem_events kids ++ [EEnd n]) with ([EStart n l] ++ flat_map elem_events kids ++ [EEnd n]).
    rewrite <- (app_nil_r [EStart n l]) at 2. apply same_body_app; [now repeat split|].
    apply (same_body_app _ [] _ []); [exact K2|now repeat split].
Qed.
Lemma swap_same n1 n2 l1 l2 : In n1 parts -> In n2 parts -> n1 <> n2 ->
  same_body ([EStart n1 l1] ++ [EStart n2 l2]) ([EStart n2 l2] ++ [EStart n1 l1]).
Proof.
  intros I1 I2 N. unfold same_body. rewrite !filter_map_app.
  assert (G : forall A (f : event -> option A), (f (EStart n1 l1) = None \/ f (EStart n2 l2) = None) ->
    filter_map f [EStart n1 l1] ++ filter_map f [EStart n2 l2] = filter_map f [EStart n2 l2] ++ filter_map f [EStart n1 l1]).
  { intros A f [H|H]; cbn [filter_map]; rewrite H; cbn [app]; now rewrite app_nil_r. }
  assert (D : forall s, str_eqb n1 (lit s) = false \/ str_eqb n2 (lit s) = false).
  { intros s. destruct (str_eqb n1 (lit s)) eqn:E; [|now left]. right. apply str_eqb_eq in E. apply str_eqb_neq. congruence. }
  repeat split; apply G; cbn [tag_of ref_of member_of].
  - destruct (D "tag"%string) as [-> | ->]; auto.
  - destruct (D "nd"%string) as [-> | ->]; auto.
  - destruct (D "member"%string) as [-> | ->]; auto.
Qed.

Scheme alike_mind := Minimality for alike Sort Prop
with alikes_mind := Minimality for alikes Sort Prop.
Combined Scheme alike_both from alike_mind, alikes_mind.

Lemma alike_events : (forall e e', alike e e' -> same_events (elem_events e) (elem_events e')) /\
  (forall es es', alikes es es' -> same_events (flat_map elem_events es) (flat_map elem_events es')).
Proof.
  apply alike_both.
  - intros n l l' kids kids' HA _ IH. cbn [elem_events].
    change (EStart n l :: flat_map elem_events kids ++ [EEnd n]) with ([EStart n l] ++ flat_map elem_events kids ++ [EEnd n]).
    change (EStart n l' :: flat_map elem_events kids' ++ [EEnd n]) with ([EStart n l'] ++ flat_map elem_events kids' ++ [EEnd n]).
    apply same_events_app; [apply start_same; intros k K; now apply same_attribute|].
    apply same_events_app; [exact IH|apply end_same].
  - intros n n' l l' kids kids' H H' _ IH. cbn [elem_events].
    change (EStart n l :: flat_map elem_events kids ++ [EEnd n]) with ([EStart n l] ++ flat_map elem_events kids ++ [EEnd n]).
    change (EStart n' l' :: flat_map elem_events kids' ++ [EEnd n']) with ([EStart n' l'] ++ flat_map elem_events kids' ++ [EEnd n']).
    destruct (other_tags n l H) as (W & (A1 & A2 & A3) & (B1 & B2 & B3)), (other_tags n' l' H') as (W' & (A1' & A2' & A3') & (B1' & B2' & B3')).
    inversion W as [|? ? W1 W2]; inversion W' as [|? ? W1' W2']; subst.
    apply same_events_app; [apply within_same; [now repeat constructor|now repeat constructor|repeat split; congruence]|].
    apply same_events_app; [exact IH|apply within_same; [assumption|assumption|repeat split; congruence]].
  - apply same_events_nil.
  - intros e e' es es' _ H1 _ H2. cbn [flat_map]. now apply same_events_app.
  - intros e es es' Hi _ H. cbn [flat_map]. change (flat_map elem_events es') with ([] ++ flat_map elem_events es').
    apply same_events_app; [|exact H]. destruct (idle_events e Hi). now apply within_same.
  - intros e es es' Hi _ H. cbn [flat_map]. change (flat_map elem_events es) with ([] ++ flat_map elem_events es).
    apply same_events_app; [|exact H]. destruct (idle_events e Hi) as [A (B & C & D)]. apply within_same; [constructor|exact A|]. now repeat split.
  - intros n1 n2 e1 e2 es es' P1 P2 N _ H. cbn [flat_map]. rewrite !app_assoc. apply same_events_app; [|exact H].
    destruct (part_events n1 e1 P1) as (W1 & l1 & B1), (part_events n2 e2 P2) as (W2 & l2 & B2).
    apply within_same; [now apply Forall_app|now apply Forall_app|].
    assert (I1 : In n1 parts) by (destruct P1 as (? & ? & _ & I1 & _); exact I1).
    assert (I2 : In n2 parts) by (destruct P2 as (? & ? & _ & I2 & _); exact I2).
    pose proof (same_body_app _ _ _ _ B1 B2) as (A1 & A2 & A3). pose proof (same_body_app _ _ _ _ B2 B1) as (A1' & A2' & A3').
    pose proof (swap_same n1 n2 l1 l2 I1 I2 N) as (S1 & S2 & S3). repeat split; congruence.
  - intros a b c _ H1 _ H2. eapply same_events_trans; eassumption.
Qed.

(** ** C121 *)

Theorem C121_alike : forall attr_ws attr_ws' e e' t t' os r, document attr_ws e t -> document attr_ws' e' t' -> alike e e' ->
  Runs xml_next (xml_items attr_ws (utf8 t)) os r ->
  exists r', Runs xml_next (xml_items attr_ws' (utf8 t')) os (Ret r') /\ Runs osc_next (xml_items attr_ws' (utf8 t')) os (Ret r')
    /\ (r = Ret [] <-> r' = []).
Proof.
  intros aw aw' e e' t t' os r D D' HA R.
  destruct (C115_objects aw e t D) as (rest & R1 & _ & H1). destruct (C115_objects aw' e' t' D') as (rest' & R2 & R3 & H2).
  destruct (Runs_det _ _ _ _ R _ _ R1) as [-> ->].
  destruct (proj1 alike_events e e' HA None None I) as [E _]. rewrite E in *.
  exists rest'. split; [exact R2|]. split; [exact R3|]. rewrite H2, <- H1. split; [now intros [= ->]|now intros ->].
Qed.
Print Assumptions C121_alike.

(** A tool that decides whether a text is a given document. *)
Definition events_of (t : str) : list event :=
  filter_map (fun i => match i with IEv e => Some e | IErr => None end) (titems (trun (fun c => c) tstart t)).
Lemma is_document t e : ~ In IErr (titems (trun (fun c => c) tstart t)) -> strip (events_of t) = elem_events e ->
  document (fun c => c) e t.
Proof.
  intros N H. destruct (items_document (fun c => c) t N) as (e' & D). destruct (document_items _ _ _ D) as (evs & E & S).
  replace e with e'; [exact D|]. apply tree_unique. rewrite <- S, <- H. unfold events_of. rewrite E.
  replace (filter_map _ (map IEv (evs ++ [EOther []]))) with (evs ++ [EOther []]) by (generalize (evs ++ [EOther []]); intros l0; induction l0 as [|x l0 IH]; [reflexivity|]; cbn; now rewrite <- IH).
  rewrite strip_app. cbn. now rewrite app_nil_r.
Qed.

(** A file as another program may write it: the objects are the same. *)
Definition C121_text : str := lit "<osm><way id='1' version='2'><nd ref='5'/><nd ref='6'/><tag k='a' v='b'/></way></osm>".
Definition C121_text' : str :=
  lit "<osm version='0.6'><bounds minlat='1'/><way version='2' colour='red' id='1'><nd ref='5'/><tag v='b' k='a'/><note><p/></note><nd ref='6'/></way></osm>".
Definition at1 (k v : string) : str * str := (lit k, lit v).
Definition C121_tree : elem := El (lit "osm") [] [El (lit "way") [at1 "id" "1"; at1 "version" "2"]
  [El (lit "nd") [at1 "ref" "5"] []; El (lit "nd") [at1 "ref" "6"] []; El (lit "tag") [at1 "k" "a"; at1 "v" "b"] []]].
Definition C121_tree' : elem := El (lit "osm") [at1 "version" "0.6"] [El (lit "bounds") [at1 "minlat" "1"] [];
  El (lit "way") [at1 "version" "2"; at1 "colour" "red"; at1 "id" "1"]
  [El (lit "nd") [at1 "ref" "5"] []; El (lit "tag") [at1 "v" "b"; at1 "k" "a"] []; El (lit "note") [] [El (lit "p") [] []];
   El (lit "nd") [at1 "ref" "6"] []]].

Lemma otherb n : object_nameb n = false -> existsb (str_eqb n) parts = false -> other n.
Proof.
  intros H P. assert (G : forall l, existsb (str_eqb n) l = false -> ~ In n l).
  { intros l E I. assert (T : existsb (str_eqb n) l = true) by (apply existsb_exists; exists n; split; [exact I|apply str_eqb_refl]). congruence. }
  split; [exact (G _ H)|exact (G _ P)].
Qed.
Ltac nodup := repeat (constructor; [cbn [map fst In]; vm_compute; intuition discriminate|]); constructor.

Example C121_ex : document (fun c => c) C121_tree C121_text /\ document (fun c => c) C121_tree' C121_text' /\ alike C121_tree C121_tree'
  /\ Runs xml_next (xml_items (fun c => c) (utf8 C121_text')) [SWay (SW (Meta 1 (Some 2) false None None None None) [(lit "a", lit "b")] [5; 6])] (Ret []).
Proof.
  assert (D : document (fun c => c) C121_tree C121_text) by (apply is_document; [vm_compute; intuition discriminate|vm_compute; reflexivity]).
  assert (D' : document (fun c => c) C121_tree' C121_text') by (apply is_document; [vm_compute; intuition discriminate|vm_compute; reflexivity]).
  split; [exact D|]. split; [exact D'|].
  assert (S : forall l, NoDup (map fst l) -> same_attrs l l) by (intros l N; split; [exact N|split; [exact N|apply Permutation_refl]]).
  assert (ND : forall v, alike (El (lit "nd") [at1 "ref" v] []) (El (lit "nd") [at1 "ref" v] [])).
  { intros v. apply alike_el; [apply S; cbn [map fst]; constructor; [intros []|constructor]|constructor]. }
  split.
  - apply alike_other; [now apply otherb|now apply otherb|].
    apply alikes_add; [constructor; [now apply otherb|constructor]|]. apply alikes_cons; [|constructor].
    apply alike_el.
    + split; [nodup|]. split; [nodup|]. cbv zeta. change (Permutation [at1 "id" "1"; at1 "version" "2"] [at1 "version" "2"; at1 "id" "1"]). apply perm_swap.
    + apply alikes_cons; [apply ND|]. eapply alikes_trans.
      * apply (alikes_swap (lit "nd") (lit "tag")); [| |discriminate|apply alikes_nil].
        -- exists [at1 "ref" "6"], []. split; [reflexivity|]. split; [now right; left|constructor].
        -- exists [at1 "k" "a"; at1 "v" "b"], []. split; [reflexivity|]. split; [now left|constructor].
      * apply alikes_cons.
        -- apply alike_el; [|constructor]. split; [nodup|]. split; [nodup|]. cbv zeta.
           change (Permutation [at1 "k" "a"; at1 "v" "b"] [at1 "v" "b"; at1 "k" "a"]). apply perm_swap.
        -- apply alikes_add; [|apply alikes_cons; [apply ND|constructor]].
           constructor; [now apply otherb|]. constructor; [|constructor]. constructor; [now apply otherb|constructor].
  - destruct (C115_objects _ _ _ D') as (rest & R & _ & H).
    assert (E : readings None (elem_events C121_tree') = [Some (SWay (SW (Meta 1 (Some 2) false None None None None) [(lit "a", lit "b")] [5; 6]))]) by (vm_compute; reflexivity).
    rewrite E in *. cbn [first_objects] in R. rewrite (proj2 H) in R; [exact R|]. constructor; [discriminate|constructor].
Qed.

(** The order among references matters. *)
Theorem C121_order_refuted : exists e e' t t' o o', document (fun c => c) e t /\ document (fun c => c) e' t' /\ o <> o'
  /\ (exists l, e = El (lit "way") l [El (lit "nd") [at1 "ref" "5"] []; El (lit "nd") [at1 "ref" "6"] []]
             /\ e' = El (lit "way") l [El (lit "nd") [at1 "ref" "6"] []; El (lit "nd") [at1 "ref" "5"] []])
  /\ Runs xml_next (xml_items (fun c => c) (utf8 t)) [o] (Ret []) /\ Runs xml_next (xml_items (fun c => c) (utf8 t')) [o'] (Ret []).
Proof.
  exists (El (lit "way") [at1 "id" "1"] [El (lit "nd") [at1 "ref" "5"] []; El (lit "nd") [at1 "ref" "6"] []]),
    (El (lit "way") [at1 "id" "1"] [El (lit "nd") [at1 "ref" "6"] []; El (lit "nd") [at1 "ref" "5"] []]),
    (lit "<way id='1'><nd ref='5'/><nd ref='6'/></way>"), (lit "<way id='1'><nd ref='6'/><nd ref='5'/></way>"),
    (SWay (SW (plain 1) [] [5; 6])), (SWay (SW (plain 1) [] [6; 5])).
  assert (D : document (fun c => c) (El (lit "way") [at1 "id" "1"] [El (lit "nd") [at1 "ref" "5"] []; El (lit "nd") [at1 "ref" "6"] []])
    (lit "<way id='1'><nd ref='5'/><nd ref='6'/></way>")) by (apply is_document; [vm_compute; intuition discriminate|vm_compute; reflexivity]).
  assert (D' : document (fun c => c) (El (lit "way") [at1 "id" "1"] [El (lit "nd") [at1 "ref" "6"] []; El (lit "nd") [at1 "ref" "5"] []])
    (lit "<way id='1'><nd ref='6'/><nd ref='5'/></way>")) by (apply is_document; [vm_compute; intuition discriminate|vm_compute; reflexivity]).
  split; [exact D|]. split; [exact D'|]. split; [discriminate|]. split; [eexists; split; reflexivity|]. split.
  - destruct (C115_objects _ _ _ D) as (rest & R & _ & H).
    match type of H with _ <-> Forall _ ?x => assert (E : x = [Some (SWay (SW (plain 1) [] [5; 6]))]) by (vm_compute; reflexivity); rewrite E in * end.
    cbn [first_objects] in R. rewrite (proj2 H) in R; [exact R|]. constructor; [discriminate|constructor].
  - destruct (C115_objects _ _ _ D') as (rest & R & _ & H).
    match type of H with _ <-> Forall _ ?x => assert (E : x = [Some (SWay (SW (plain 1) [] [6; 5]))]) by (vm_compute; reflexivity); rewrite E in * end.
    cbn [first_objects] in R. rewrite (proj2 H) in R; [exact R|]. constructor; [discriminate|constructor].
Qed.
Print Assumptions C121_order_refuted.
