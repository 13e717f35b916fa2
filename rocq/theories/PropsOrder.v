(** C119: the order of object types and of references to objects. *)
From Coq Require Import String ZArith List Bool Lia Sorting.Permutation Sorting.Sorted.
From Verif Require Import Base Obj ObjOrder.
Import ListNotations.
Open Scope Z_scope.

(** ** Specification *)

(** [comes a b]: the reference [a] sorts strictly before [b]. *)
Definition comes (a b : objtype * Z) : Prop := objref_cmp a b = Lt.

(** References to objects of type [t] with the given ids. *)
Definition refs (t : objtype) (ids : list Z) : list (objtype * Z) := map (fun i => (t, i)) ids.

(** ** Proof *)

Lemma comes_iff a b : comes a b <->
  discriminant (fst a) < discriminant (fst b) \/ (fst a = fst b /\ snd a < snd b).
Proof.
  unfold comes, objref_cmp, objtype_cmp. destruct a as [[] i], b as [[] j]; cbn [fst snd discriminant]; cbn;
    rewrite ?Z.compare_lt_iff; intuition (try lia; try discriminate).
Qed.

Lemma ids_sorted t ids : StronglySorted comes (refs t ids) <-> StronglySorted Z.lt ids.
Proof.
  induction ids as [|i ids IH]; [split; constructor|]. cbn. split; intros H; inversion H as [|x y HS HF]; subst;
    (constructor; [now apply IH|]).
  - rewrite Forall_forall in *. intros j Hj. specialize (HF (t, j) (in_map _ _ _ Hj)).
    apply comes_iff in HF. cbn in HF. lia.
  - rewrite Forall_forall in *. intros x Hx. apply in_map_iff in Hx as (j & <- & Hj). apply comes_iff. cbn.
    right. split; [reflexivity|]. now apply HF.
Qed.

Lemma sorted_app {A} (R : A -> A -> Prop) l1 l2 : StronglySorted R l1 -> StronglySorted R l2 ->
  (forall a b, In a l1 -> In b l2 -> R a b) -> StronglySorted R (l1 ++ l2).
Proof.
  induction 1 as [|a l H IH F]; intros H2 H3; [exact H2|]. cbn. constructor.
  - apply IH; [exact H2|]. intros x y Hx Hy. apply H3; [now right|exact Hy].
  - apply Forall_app. split; [exact F|]. apply Forall_forall. intros y Hy. apply H3; [now left|exact Hy].
Qed.

(** ** C119 *)

(** A strict order in which any two different references are comparable; types
    alone: node, way, relation. *)
Theorem C119_total : forall a b c : objtype * Z,
  ~ comes a a /\ (comes a b -> comes b c -> comes a c) /\ (comes a b \/ a = b \/ comes b a) /\
  (objref_cmp a b = Eq <-> a = b) /\ (objref_cmp a b = Gt <-> comes b a).
Proof.
  intros a b c.
  assert (D : forall x y, discriminant x = discriminant y -> x = y) by (intros [] []; cbn; congruence).
  assert (T : comes a b \/ a = b \/ comes b a).
  { rewrite !comes_iff. destruct a as [t i], b as [u j]. cbn [fst snd].
    destruct (Z.lt_trichotomy (discriminant t) (discriminant u)) as [L|[E|L]]; [auto| |auto].
    apply D in E as ->. destruct (Z.lt_trichotomy i j) as [L|[-> |L]]; auto. }
  assert (I : forall x, ~ comes x x) by (intros x; rewrite comes_iff; lia).
  assert (Q : objref_cmp a b = Eq <-> a = b).
  { split; [|intros ->; unfold objref_cmp, objtype_cmp; now rewrite !Z.compare_refl].
    unfold objref_cmp, objtype_cmp. destruct a as [t i], b as [u j]. cbn [fst snd].
    destruct (Z.compare_spec (discriminant t) (discriminant u)) as [E| |]; [|discriminate|discriminate].
    apply D in E as ->. intros H. apply Z.compare_eq in H. now subst. }
  assert (N : ~ (comes a b /\ comes b a)).
  { rewrite !comes_iff. intros [[A|[A A']] [B|[B B']]]; rewrite ?A, ?B in *; lia. }
  split; [apply I|]. split; [|split; [exact T|split; [exact Q|]]].
  - rewrite !comes_iff. intros [A|[A A']] [B|[B B']]; [left; lia|left; now rewrite <- B|left; now rewrite A|].
    right. split; [congruence|lia].
  - split.
    + intros H. destruct T as [T|[T|T]]; [|apply Q in T|exact T]; unfold comes in *; congruence.
    + intros H. destruct (objref_cmp a b) eqn:E; [|exfalso; apply N; now split|reflexivity].
      exfalso. pose proof (proj1 Q eq_refl) as E'. rewrite E' in H. now apply I in H.
Qed.
Print Assumptions C119_total.

(** Lists in this order are exactly: nodes, then ways, then relations, each with
    increasing ids - the usual order of objects in an OSM file. *)
Theorem C119_file_order : forall l, StronglySorted comes l <->
  exists nodes ways rels, l = refs TNode nodes ++ refs TWay ways ++ refs TRelation rels /\
    StronglySorted Z.lt nodes /\ StronglySorted Z.lt ways /\ StronglySorted Z.lt rels.
Proof.
  intros l. split.
  - induction 1 as [|[t i] l H IH F].
    + exists [], [], []. repeat split; constructor.
    + destruct IH as (ns & ws & rs & -> & S1 & S2 & S3).
      rewrite !Forall_app in F. destruct F as (F1 & F2 & F3).
      assert (G : forall t' ids, Forall (comes (t, i)) (refs t' ids) ->
        (discriminant t' < discriminant t -> ids = []) /\ (t' = t -> Forall (Z.lt i) ids)).
      { intros t' ids HF. split.
        - destruct ids as [|j ids]; [easy|]. intros L. cbn in HF. apply Forall_inv in HF. apply comes_iff in HF.
          cbn in HF. destruct HF as [HF|[HF _]]; [lia|]. subst. lia.
        - intros ->. rewrite Forall_forall in *. intros j Hj. specialize (HF (t, j) (in_map _ _ _ Hj)).
          apply comes_iff in HF. cbn in HF. lia. }
      destruct (G _ _ F1) as (A1 & B1), (G _ _ F2) as (A2 & B2), (G _ _ F3) as (A3 & B3).
      destruct t.
      * exists (i :: ns), ws, rs. repeat split; try assumption. constructor; auto.
      * rewrite A1 by (cbn; lia). exists [], (i :: ws), rs. repeat split; try assumption; constructor; auto.
      * rewrite A1, A2 by (cbn; lia). exists [], [], (i :: rs). repeat split; try assumption; constructor; auto.
  - intros (ns & ws & rs & -> & S1 & S2 & S3).
    apply sorted_app; [now apply ids_sorted|apply sorted_app; try (now apply ids_sorted)|].
    + intros a b Ha Hb. apply in_map_iff in Ha as (i & <- & _). apply in_map_iff in Hb as (j & <- & _).
      apply comes_iff. cbn. lia.
    + intros a b Ha Hb. apply in_map_iff in Ha as (i & <- & _). apply comes_iff.
      apply in_app_iff in Hb as [Hb|Hb]; apply in_map_iff in Hb as (j & <- & _); cbn; lia.
Qed.
Print Assumptions C119_file_order.

(** The order of the types is not the order of their one-letter names. *)
Theorem C119_names_refuted : exists a b, objtype_cmp a b = Lt /\ name_short a > name_short b.
Proof. exists TWay, TRelation. split; reflexivity. Qed.
Print Assumptions C119_names_refuted.

Example C119_ex : StronglySorted comes [(TNode, -5); (TNode, 7); (TWay, 1); (TRelation, -2); (TRelation, 9)].
Proof.
  apply C119_file_order. exists [-5; 7], [1], [-2; 9].
  repeat split; repeat constructor; lia.
Qed.
