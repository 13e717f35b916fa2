(** C123: editing a file: reading it, changing objects, writing them, reading again. *)
From Coq Require Import String ZArith List Bool Lia Permutation.
From Coq Require Import ZifyBool ZifyNat.
From Verif Require Import Base Ints Timestamp Obj SpecObj ObjFacts Coord Utf8 XmlWrite SpecXml SpecWriter XmlWriteFacts XmlToken XmlRead
  SpecXmlRead SpecIter SpecXmlText XmlExact XmlReadBack XmlCopy PropsObj PropsWriter PropsXml PropsXmlExact PropsCopy.
From Verif Require Import PbWire PbMsg PbfRead PropsFlow PropsFlow2.
Import ListNotations.
Open Scope Z_scope.

(** ** Specification *)

(** Objects that were read from a file: from XML, all with a version and such that a copy has
    them too (C111); or from PBF, with texts that XML can carry. *)
Definition from_file (attr_ws : char -> char) (os : list sobj) : Prop :=
  (exists b r, (Runs xml_next (xml_items attr_ws b) os r \/ Runs osc_next (xml_items attr_ws b) os r)
     /\ Forall (fun o => m_version (s_meta o) <> None) os /\ Forall (copied attr_ws) os)
  \/ (exists rt chk inflate src r, Runs (s_next rt chk inflate) (s_new src) os r /\ Forall (texts_carried attr_ws) os).

(** Arguments of the right types and with texts that XML can carry; the version and the
    position of a node are not removed. *)
Definition allowed (attr_ws : char -> char) (p : op) : Prop :=
  match p with
  | SetId v => in_i64 v
  | SetVersion v => v <> None /\ opt_prop in_u32 v
  | SetChangeset v | SetUid v => opt_prop in_u32 v
  | SetTimestamp v => opt_prop (fun t => carried attr_ws (to_iso_string t) /\ plain (to_iso_string t)) v
  | SetUser v => opt_prop (carried attr_ws) v
  | SetTag k v => carried attr_ws k /\ carried attr_ws v
  | SetLatLonDirect v => v <> None /\ opt_prop (fun p => in_i32 (fst p) /\ in_i32 (snd p)) v
  | SetNodes v => Forall in_i64 v
  | SetMembers v => Forall (fun m => in_i64 (snd (fst m)) /\ carried attr_ws (snd m)) v
  | SetDeleted _ | UnsetTag _ | StripMetadata => True
  end.

(** The value of a field after calls: what the last call that sets it gave it. *)
Definition field_eq_dec (a b : SpecObj.field) : {a = b} + {a <> b}.
Proof. decide equality. Defined.
Definition set_by (t : objtype) (f : SpecObj.field) (v : fieldval) (p : op) : fieldval :=
  match find (fun w => if field_eq_dec (fst w) f then true else false) (writes t p) with
  | Some (_, Some v') => v'
  | _ => v
  end.
(** Timestamps are text in the file. *)
Definition as_text (v : fieldval) : fieldval :=
  match v with VTime (Some t) => VTime (Some (ISOString (to_iso_string t))) | _ => v end.

(** What must be read for the object [o] changed by the calls [ps]. *)
Definition edited (o : sobj) (ps : list op) (o' : sobj) : Prop :=
  (forall f, f <> FTags -> s_get o' f = as_text (fold_left (set_by (s_type o) f) ps (s_get o f)))
  /\ (NoDup (map fst (s_tags o)) -> NoDup (map fst (s_tags o')) /\ forall k, s_tag o' k = fold_left (tag_effect k) ps (s_tag o k))
  /\ ((forall k v, ~ In (SetTag k v) ps /\ ~ In (UnsetTag k) ps) -> s_tags o' = s_tags o).

(** ** Proof *)

Definition ready (attr_ws : char -> char) (o : sobj) : Prop :=
  in_range o /\ m_version (s_meta o) <> None /\ comes_back attr_ws o.
Lemma ready_strings aw o : ready aw o -> strings o.
Proof.
  intros (_ & _ & _ & T). eapply texts_mono; [| |exact T].
  - intros s. apply Forall_impl. intros c [H _]. unfold xml_char in H. unfold scalar. lia.
  - intros s [H _]. revert H. apply Forall_impl. intros c [H _]. unfold xml_char in H. unfold scalar. lia.
Qed.
Lemma from_file_ready aw os : spaces aw -> from_file aw os -> Forall (ready aw) os.
Proof.
  intros Hw [(b & r & H & Hv & Hc)|(rt & chk & infl & src & r & H & Ht)].
  - pose proof H as R. rewrite runs_osc in R. assert (R' : Runs xml_next (xml_items aw b) os r) by tauto.
    pose proof (runs_ok _ _ _ R' (items_ok aw (spaces_char aw Hw) b)) as F.
    rewrite Forall_forall in *. intros o Ho. split; [apply F, Ho|]. split; [apply Hv, Ho|]. apply (from_xml_copied aw o (F o Ho)), Hc, Ho.
  - pose proof (s_complete _ _ _ _ _ _ H) as Ho. rewrite Forall_forall in *. intros o Hin. pose proof (Ho o Hin) as C.
    split; [apply C|]. split; [apply C|]. apply (complete_back aw o (proj1 Hw) C), Ht, Hin.
Qed.

Lemma s_meta_op o p : s_meta (s_op o p) = meta_op p (s_meta o).
Proof. now destruct o. Qed.
Lemma tags_set_all (Q : str * str -> Prop) k v l : Q (k, v) -> Forall Q l -> Forall Q (tags_set k v l).
Proof.
  intros H F. destruct (tags_set_shape k v l) as [[_ ->]|(l1 & w & l2 & E & _ & ->)].
  - apply Forall_app. split; [exact F|now constructor].
  - subst l. apply Forall_app in F as [A B]. apply Forall_cons_iff in B as [_ B]. apply Forall_app. split; [exact A|now constructor].
Qed.
Lemma tags_unset_all (Q : str * str -> Prop) k l : Forall Q l -> Forall Q (tags_unset k l).
Proof.
  intros F. destruct (tags_unset_shape k l) as [[_ ->]|(l1 & w & l2 & E & _ & ->)]; [exact F|].
  subst l. apply Forall_app in F as [A B]. apply Forall_cons_iff in B as [_ B]. apply Forall_app. now split.
Qed.

Lemma ready_op aw o p : ready aw o -> allowed aw p -> ready aw (s_op o p).
Proof.
  intros (R & V & P & U & T & M & I) A.
  destruct o as [[m t ll]|[m t ns]|[m t ms]], m as [mi mv md mc mt mu mn];
    cbn [in_range has_position s_meta s_tags obj_members sn_meta sn_tags sn_latlon sw_meta sw_tags sw_nodes sr_meta sr_tags sr_members
      m_id m_version m_deleted m_changeset m_timestamp m_uid m_user] in *;
    destruct R as (R1 & R2 & R3 & R4 & R5);
    destruct p; cbn [allowed] in A; unfold ready, in_range, comes_back, texts, has_position; cbn; repeat split; try tauto; try assumption;
    try (apply tags_set_all; assumption); try (apply tags_unset_all; assumption); try (eapply Forall_impl; [|exact A]; intros ? []; assumption).
  all: first [apply R1 | apply A].
Qed.

Lemma ready_ops aw ps : Forall (allowed aw) ps -> forall o, ready aw o -> ready aw (s_ops o ps).
Proof. induction 1 as [|p ps Hp _ IH]; intros o Ho; [exact Ho|]. apply IH. now apply ready_op. Qed.
Lemma s_type_ops ps : forall o, s_type (s_ops o ps) = s_type o.
Proof. induction ps as [|p ps IH]; intros o; [reflexivity|]. unfold s_ops in *. cbn [fold_left]. rewrite IH. now destruct o. Qed.

Lemma get_op o p f : f <> FTags -> s_get (s_op o p) f = set_by (s_type o) f (s_get o f) p.
Proof.
  intros N. destruct (C16_setters_string o p f) as [A B]. unfold set_by.
  destruct (find _ (writes (s_type o) p)) as [[f' [v|]]|] eqn:E.
  - apply find_some in E as [I E]. cbn [fst] in E. destruct (field_eq_dec f' f) as [->|]; [|discriminate]. now apply A.
  - apply find_some in E as [I E]. cbn [fst] in E. destruct (field_eq_dec f' f) as [->|]; [|discriminate].
    exfalso. apply N. destruct p, (s_type o); cbn in I; intuition congruence.
  - apply B. intros I. apply in_map_iff in I as ((f' & v) & <- & I). apply (find_none _ _ E) in I. cbn [fst] in I.
    destruct (field_eq_dec f' f'); [discriminate|contradiction].
Qed.
Lemma get_ops ps f : f <> FTags -> forall o, s_get (s_ops o ps) f = fold_left (set_by (s_type o) f) ps (s_get o f).
Proof.
  intros N. induction ps as [|p ps IH]; intros o; [reflexivity|]. unfold s_ops in *. cbn [fold_left]. rewrite IH, get_op by exact N.
  replace (s_type (s_op o p)) with (s_type o) by now destruct o. reflexivity.
Qed.
Lemma get_as_read o f : s_get (as_read o) f = as_text (s_get o f).
Proof.
  destruct o as [[m t ll]|[m t ns]|[m t ms]], m as [mi mv md mc [mt|] mu mn], f; reflexivity.
Qed.
Lemma ops_edited o ps : edited o ps (as_read (s_ops o ps)).
Proof.
  split; [|split].
  - intros f N. rewrite get_as_read. now rewrite get_ops.
  - intros N. assert (E : s_tags (as_read (s_ops o ps)) = fold_left (fun t p => tags_op p t) ps (s_tags o)).
    { rewrite <- s_tags_ops. now destruct (s_ops o ps). }
    rewrite E. split; [exact (proj1 (tags_ops_inv ps (s_tags o) [] N))|]. intros k. rewrite !s_tag_eq, E. exact (proj2 (tags_ops_inv ps (s_tags o) k N)).
  - intros H. assert (E : s_tags (as_read (s_ops o ps)) = fold_left (fun t p => tags_op p t) ps (s_tags o)).
    { rewrite <- s_tags_ops. now destruct (s_ops o ps). }
    rewrite E. clear E. generalize (s_tags o). induction ps as [|p ps IH]; intros t; [reflexivity|]. cbn [fold_left].
    rewrite IH by (intros k v; destruct (H k v); split; intros X; [apply H0|apply H1]; now right).
    destruct p; try reflexivity; exfalso; [destruct (H k v) as [X _]|destruct (H k []) as [_ X]]; apply X; now left.
Qed.

(** ** C123 *)

Theorem C123_edit : forall attr_ws, spaces attr_ws -> forall ord, (forall l, Permutation (ord l) l) ->
  forall os edits, from_file attr_ws os -> length edits = length os -> Forall (Forall (allowed attr_ws)) edits ->
  forall cs, written cs = map (fun e => s_ops (fst e) (snd e)) (combine os edits) ->
  exists os', Forall2 (fun e o' => edited (fst e) (snd e) o') (combine os edits) os'
    /\ (closes cs = 1%nat -> good_header_calls attr_ws (header_calls cs) ->
        Runs xml_next (xml_items attr_ws (out (fst (run_calls (xml_call ord) (new_writer None) cs)))) os' (Ret []))
    /\ Runs osc_next (xml_items attr_ws (out (fst (run_calls osc_call (new_writer None) (cs ++ [CClose]))))) os' (Ret []).
Proof.
  intros aw Hw ord Hord os edits HF HL HA cs HC. pose proof (from_file_ready aw os Hw HF) as HR.
  assert (W : Forall (ready aw) (written cs)).
  { rewrite HC. apply Forall_map. apply Forall_forall. intros [o ps] I. cbn [fst snd]. apply ready_ops.
    - rewrite Forall_forall in HA. apply HA. eapply in_combine_r. exact I.
    - rewrite Forall_forall in HR. apply HR. eapply in_combine_l. exact I. }
  assert (X : Forall (fun o => in_range o /\ m_version (s_meta o) <> None /\ strings o) (written cs)).
  { eapply Forall_impl; [|exact W]. intros o Ho. split; [apply Ho|]. split; [apply Ho|exact (ready_strings aw o Ho)]. }
  assert (Y : Forall (comes_back aw) (written cs)) by (eapply Forall_impl; [|exact W]; intros o Ho; apply Ho).
  exists (map as_read (written cs)). split; [|split].
  - rewrite HC, map_map. generalize (combine os edits). intros l. induction l as [|[o ps] l IH]; cbn [map]; constructor; [apply ops_edited|exact IH].
  - intros H1 H2. exact (proj2 (C27_exact aw (proj1 Hw) ord Hord cs H1 H2 X) Y).
  - exact (proj2 (C28_exact aw (proj1 Hw) cs X) Y).
Qed.
Print Assumptions C123_edit.

(** A file with a way, which gets a tag, loses one, and gets a version. *)
Definition C123_way : sobj := SWay (SW (Meta 1 (Some 2) false None None None None) [(lit "a", lit "b")] [5]).
Definition C123_edits : list op := [SetTag (lit "c") (lit "d"); UnsetTag (lit "a"); SetVersion (Some 3)].
Example C123_ex : from_file (fun c => c) [C123_way] /\ Forall (Forall (allowed (fun c => c))) [C123_edits]
  /\ closes [CWrite (s_ops C123_way C123_edits); CClose] = 1%nat
  /\ forall o', edited C123_way C123_edits o' -> m_version (s_meta o') = Some 3 /\ m_id (s_meta o') = 1
      /\ s_tag o' (lit "c") = Some (lit "d") /\ s_tag o' (lit "a") = None /\ obj_nds o' = [5].
Proof.
  split; [|split; [|split; [reflexivity|]]].
  - left. exists (utf8 (lit "<osm><way id='1' version='2'><tag k='a' v='b'/><nd ref='5'/></way></osm>")), (Ret []). split.
    + left. eapply Runs_step; [vm_compute; reflexivity|]. apply Runs_end. vm_compute. reflexivity.
    + split; [repeat constructor; discriminate|]. repeat constructor.
  - repeat constructor; try discriminate; cbn; unfold in_u32; lia.
  - intros o' (G & T & _).
    pose proof (G FVersion ltac:(discriminate)) as G1. pose proof (G FId ltac:(discriminate)) as G2. pose proof (G FNodes ltac:(discriminate)) as G3.
    cbn in G1, G2, G3. injection G1 as G1. injection G2 as G2.
    split; [exact G1|]. split; [exact G2|]. destruct T as [_ T]; [repeat constructor; intros []|].
    split; [rewrite T; reflexivity|]. split; [rewrite T; reflexivity|]. destruct o'; try discriminate. now injection G3.
Qed.
