(** C98: building objects. *)
From Coq Require Import String ZArith List Bool.
From Verif Require Import Base Timestamp Obj SpecObj Builder.
Import ListNotations.
Open Scope Z_scope.

(** The field a setter is for, and what the getter of the field returns for the value. *)
Definition gives (c : setter) : field * fieldval :=
  match c with
  | B_id v => (FId, VZ v)
  | B_version v => (FVersion, VOptZ (Some v))
  | B_deleted v => (FDeleted, VBool v)
  | B_changeset_id v => (FChangeset, VOptZ (Some v))
  | B_timestamp v => (FTimestamp, VTime (Some v))
  | B_uid v => (FUid, VOptZ (Some v))
  | B_user v => (FUser, VOptStr (Some v))
  | B_tags v => (FTags, VTags v)
  | B_lat_lon v => (FLatLon, VLatLon (Some v))
  | B_nodes v => (FNodes, VNodes v)
  | B_members v => (FMembers, VMembers v)
  end.
(** The setters the builder of a kind has. *)
Definition has_setter (t : objtype) (c : setter) : Prop :=
  match fst (gives c) with FLatLon => t = TNode | FNodes => t = TWay | FMembers => t = TRelation | _ => True end.
(** What a getter returns when nothing was given ([VNone]: nothing may be missing, or the
    kind has no such getter). *)
Definition initial (t : objtype) (f : field) : fieldval :=
  match f with
  | FVersion | FChangeset | FUid => VOptZ None
  | FDeleted => VBool false
  | FTimestamp => VTime None
  | FUser => VOptStr None
  | FTags => VTags []
  | FLatLon => match t with TNode => VLatLon None | _ => VNone end
  | FNodes => match t with TWay => VNodes [] | _ => VNone end
  | FMembers => match t with TRelation => VMembers [] | _ => VNone end
  | FType => VType t
  | FId => VNone
  end.
(** [v] is the value given last for [f]. *)
Definition given_last (f : field) (v : fieldval) (cs : list setter) : Prop :=
  exists c1 c c2, cs = c1 ++ c :: c2 /\ gives c = (f, v) /\ Forall (fun c' => fst (gives c') <> f) c2.
Definition not_given (f : field) (cs : list setter) : Prop := Forall (fun c => fst (gives c) <> f) cs.


Lemma field_eq_dec (a b : field) : {a = b} + {a <> b}.
Proof. decide equality. Qed.
Lemma s_get_ext a b : (forall f, s_get a f = s_get b f) -> a = b.
Proof.
  intros H.
  pose proof (H FId) as Hi. pose proof (H FVersion) as Hv. pose proof (H FDeleted) as Hd. pose proof (H FChangeset) as Hc.
  pose proof (H FTimestamp) as Ht. pose proof (H FUid) as Hu. pose proof (H FUser) as Hus. pose proof (H FTags) as Htg.
  pose proof (H FLatLon) as Hl. pose proof (H FNodes) as Hn. pose proof (H FMembers) as Hm.
  destruct a as [[[]]|[[]]|[[]]], b as [[[]]|[[]]|[[]]]; try discriminate; cbn in *; congruence.
Qed.
Lemma given_snoc f v cs c : given_last f v (cs ++ [c]) <-> gives c = (f, v) \/ fst (gives c) <> f /\ given_last f v cs.
Proof.
  split.
  - intros (c1 & d & c2 & E & G & F). destruct c2 as [|x c2 _] using rev_ind.
    + apply app_inj_tail in E as (_ & ->). now left.
    + change (d :: c2 ++ [x]) with ((d :: c2) ++ [x]) in E. rewrite app_assoc in E. apply app_inj_tail in E as (-> & ->).
      apply Forall_app in F as (F & Fx). inversion Fx; subst. right. split; [assumption|]. now exists c1, d, c2.
  - intros [G|(N & c1 & d & c2 & -> & G & F)].
    + exists cs, c, []. split; [reflexivity|]. split; [exact G|constructor].
    + exists c1, d, (c2 ++ [c]). split; [now rewrite <- app_assoc|]. split; [exact G|]. apply Forall_app. split; [exact F|].
      constructor; [exact N|constructor].
Qed.
Lemma not_given_snoc f cs c : not_given f (cs ++ [c]) <-> not_given f cs /\ fst (gives c) <> f.
Proof.
  unfold not_given. rewrite Forall_app. split; intros (A & B); split; try exact A; [now inversion B|constructor; [exact B|constructor]].
Qed.

(** The builder with an id, if it has none. *)
Definition with_id (id : Z) (b : obuilder) : obuilder := match ob_id b with Some _ => b | None => ob_set b (B_id id) end.

Lemma built_with_id id0 t cs : Forall (has_setter t) cs ->
  exists o, ob_build t (with_id id0 (fold_left ob_set cs ob_new)) = Some o /\
  forall f, (forall v, given_last f v cs -> s_get o f = v) /\ (not_given f cs -> f <> FId -> s_get o f = initial t f).
Proof.
  induction cs as [|c cs IH] using rev_ind; intros H.
  { eexists. split; [reflexivity|]. intros f. split; [intros v ([|] & ? & ? & E & _); discriminate|].
    intros _ Hf. destruct t, f; try reflexivity; now elim Hf. }
  apply Forall_app in H as (H & Hc). assert (Hk : has_setter t c) by (now inversion Hc). clear Hc.
  destruct (IH H) as (o & E & I). rewrite fold_left_app. cbn [fold_left].
  destruct (fold_left ob_set cs ob_new) as [i ve de ch ti ui us ta la no me].
  assert (X : exists o', ob_build t (with_id id0 (ob_set (OB i ve de ch ti ui us ta la no me) c)) = Some o' /\
    s_get o' (fst (gives c)) = snd (gives c) /\ forall f, fst (gives c) <> f -> s_get o' f = s_get o f).
  { destruct i as [i|]; cbn in E; apply (f_equal (fun x => match x with Some y => y | None => o end)) in E; subst o;
      (destruct c, t; cbn [has_setter gives fst] in Hk; try discriminate Hk;
       (eexists; split; [reflexivity|]; split; [reflexivity|]; intros f Hf; destruct f; try reflexivity; now elim Hf)). }
  destruct X as (o' & E' & G & K). exists o'. split; [exact E'|]. intros f. destruct (I f) as (I1 & I2). split.
  - intros v Hv. apply given_snoc in Hv as [Hg|(Hn & Hv)]; [rewrite Hg in G; exact G|]. rewrite K by exact Hn. now apply I1.
  - intros Hn Hf. apply not_given_snoc in Hn as (Hn & Hn'). rewrite K by exact Hn'. now apply I2.
Qed.

(** Building fails exactly if no id was given; otherwise every getter of the object returns
    the value given last for its field, and the default if none was given. *)
Theorem C98_built : forall t cs, Forall (has_setter t) cs ->
  let r := ob_build t (fold_left ob_set cs ob_new) in
  (r = None <-> not_given FId cs) /\
  forall o, r = Some o -> s_type o = t /\
    forall f, (forall v, given_last f v cs -> s_get o f = v) /\ (not_given f cs -> s_get o f = initial t f).
Proof.
  intros t cs H r. subst r.
  assert (Hid : ob_id (fold_left ob_set cs ob_new) = None <-> not_given FId cs).
  { clear H. induction cs as [|c cs IH] using rev_ind; [split; [constructor|reflexivity]|].
    rewrite not_given_snoc, <- IH, fold_left_app. cbn [fold_left]. destruct (fold_left ob_set cs ob_new) as [i ? ? ? ? ? ? ? ? ? ?].
    destruct c; cbn; split; try discriminate; intros E; try (destruct E as (E & E')); try (now elim E'); try exact E; split; try exact E; discriminate. }
  assert (Hn : ob_build t (fold_left ob_set cs ob_new) = None <-> not_given FId cs).
  { rewrite <- Hid. unfold ob_build. destruct (ob_id _); cbn; split; congruence. }
  split; [exact Hn|]. intros o E. destruct (built_with_id 0 t cs H) as (o' & E' & I).
  assert (Hsome : ob_id (fold_left ob_set cs ob_new) <> None) by (rewrite Hid, <- Hn; congruence).
  unfold with_id in E'. destruct (ob_id (fold_left ob_set cs ob_new)) as [i|] eqn:Ei; [|now elim Hsome].
  rewrite E in E'. injection E' as <-. split.
  - unfold ob_build in E. rewrite Ei in E. cbn in E. injection E as <-. now destruct t.
  - intros f. destruct (I f) as (I1 & I2). split; [exact I1|]. intros Hf. apply I2; [exact Hf|]. intros ->. apply Hid in Hf. congruence.
Qed.
Print Assumptions C98_built.
Example C98_ex :
  let cs := [B_version 7; B_lat_lon (1, 2); B_id 5; B_version 8; B_tags [(lit "k", lit "v")]] in
  Forall (has_setter TNode) cs /\ given_last FVersion (VOptZ (Some 8)) cs /\ not_given FUser cs /\
  ob_build TNode (fold_left ob_set cs ob_new) =
    Some (SNode (SN (Meta 5 (Some 8) false None None None None) [(lit "k", lit "v")] (Some (1, 2)))).
Proof.
  cbv zeta. split; [repeat constructor|]. split; [|split; [|reflexivity]].
  - exists [B_version 7; B_lat_lon (1, 2); B_id 5], (B_version 8), [B_tags [(lit "k", lit "v")]].
    split; [reflexivity|]. split; [reflexivity|]. constructor; [discriminate|constructor].
  - unfold not_given. repeat (constructor; [discriminate|]). constructor.
Qed.

(** Calls that give the same last value for every field build the same: neither the order
    of setters of different fields nor values overwritten later matter. *)
Theorem C98_order : forall t cs ds, Forall (has_setter t) cs -> Forall (has_setter t) ds ->
  (forall f v, given_last f v cs <-> given_last f v ds) ->
  ob_build t (fold_left ob_set cs ob_new) = ob_build t (fold_left ob_set ds ob_new).
Proof.
  assert (G : forall cs f, not_given f cs \/ exists v, given_last f v cs).
  { intros cs f. induction cs as [|c cs IH] using rev_ind; [left; constructor|].
    destruct (gives c) as [g v] eqn:Eg. destruct (field_eq_dec g f) as [->|Ne].
    - right. exists v. apply given_snoc. now left.
    - destruct IH as [A|(w & A)]; [left|right; exists w].
      + apply not_given_snoc. split; [exact A|]. now rewrite Eg.
      + apply given_snoc. right. split; [now rewrite Eg|exact A]. }
  assert (N : forall cs f v, given_last f v cs -> not_given f cs -> False).
  { intros cs f v (c1 & c & c2 & -> & E & _) F. apply Forall_app in F as (_ & F). inversion F as [|? ? A _]; subst. rewrite E in A. now elim A. }
  intros t cs ds Hc Hd E. destruct (C98_built t cs Hc) as (Nc & Fc). destruct (C98_built t ds Hd) as (Nd & Fd). cbv zeta in *.
  assert (S : forall f, not_given f cs <-> not_given f ds).
  { intros f. split; intros A.
    - destruct (G ds f) as [B|(v & B)]; [exact B|]. apply E in B. destruct (N _ _ _ B A).
    - destruct (G cs f) as [B|(v & B)]; [exact B|]. apply E in B. destruct (N _ _ _ B A). }
  destruct (ob_build t (fold_left ob_set cs ob_new)) as [o|].
  - destruct (ob_build t (fold_left ob_set ds ob_new)) as [o'|].
    + destruct (Fc o eq_refl) as (_ & Ic). destruct (Fd o' eq_refl) as (_ & Id). f_equal. apply s_get_ext. intros f.
      destruct (Ic f) as (A1 & A2), (Id f) as (B1 & B2). destruct (G cs f) as [Q|(v & Q)].
      * rewrite A2 by exact Q. symmetry. apply B2. now apply S.
      * rewrite (A1 v Q). symmetry. apply B1. now apply E.
    + exfalso. assert (B : Some o = None) by (apply Nc; apply S; now apply Nd). discriminate.
  - symmetry. apply Nd. apply S. now apply Nc.
Qed.
Print Assumptions C98_order.
