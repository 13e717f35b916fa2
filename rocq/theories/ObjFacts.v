(** Proofs about objects. *)
From Coq Require Import String ZArith List Bool Lia.
From Verif Require Import Base Timestamp Obj SpecObj.
Import ListNotations.
Open Scope Z_scope.

(** ** Tag lists *)

Lemma tags_get_cons k k' v l :
  tags_get k ((k', v) :: l) = if str_eqb k' k then Some v else tags_get k l.
Proof. unfold tags_get. cbn. now destruct (str_eqb k' k). Qed.

Lemma tags_get_nil k : tags_get k [] = None.
Proof. reflexivity. Qed.

Lemma tags_get_app k l1 l2 :
  tags_get k (l1 ++ l2) = match tags_get k l1 with Some v => Some v | None => tags_get k l2 end.
Proof.
  induction l1 as [|[k' v] l1 IH]; cbn [app]; [easy|].
  rewrite !tags_get_cons. now destruct (str_eqb k' k).
Qed.

Lemma tags_get_In k v l : tags_get k l = Some v -> In (k, v) l.
Proof.
  induction l as [|[k' v'] l IH]; [easy|]. rewrite tags_get_cons.
  destruct (str_eqb k' k) eqn:E; intros H.
  - apply str_eqb_eq in E. left. congruence.
  - right. now apply IH.
Qed.

Lemma tags_get_None k l : tags_get k l = None <-> ~ In k (map fst l).
Proof.
  induction l as [|[k' v'] l IH]; [cbn; intuition|]. rewrite tags_get_cons. cbn.
  destruct (str_eqb k' k) eqn:E.
  - apply str_eqb_eq in E. split; [easy|]. intros H. exfalso. apply H. now left.
  - apply str_eqb_neq in E. rewrite IH. intuition.
Qed.

Lemma tags_get_unique k v l : NoDup (map fst l) -> In (k, v) l <-> tags_get k l = Some v.
Proof.
  intros HN. split; [|apply tags_get_In].
  induction l as [|[k' v'] l IH]; [easy|]. cbn in HN. inversion HN as [|? ? Hnin HN']; subst.
  intros [H|H]; rewrite tags_get_cons.
  - injection H as -> ->. now rewrite str_eqb_refl.
  - destruct (str_eqb k' k) eqn:E; [|now apply IH].
    apply str_eqb_eq in E. subst. exfalso. apply Hnin. now apply (in_map fst) in H.
Qed.

Lemma find_idx_none k l : find_idx k l = None <-> ~ In k (map fst l).
Proof.
  induction l as [|[k' v'] l IH]; cbn; [intuition|].
  destruct (str_eqb k' k) eqn:E.
  - apply str_eqb_eq in E. split; [easy|]. intros H. exfalso. apply H. now left.
  - apply str_eqb_neq in E. destruct (find_idx k l) as [i|] eqn:Ef; cbn.
    + split; [easy|]. intros H. exfalso. assert (A : ~ In k (map fst l)) by tauto.
      apply IH in A. easy.
    + split; [|easy]. intros _ [H|H]; [easy|]. now apply IH in H.
Qed.

Lemma find_idx_some k l i : find_idx k l = Some i ->
  exists l1 v l2, l = l1 ++ (k, v) :: l2 /\ length l1 = i /\ ~ In k (map fst l1).
Proof.
  revert i; induction l as [|[k' v'] l IH]; cbn; intros i; [easy|].
  destruct (str_eqb k' k) eqn:E.
  - apply str_eqb_eq in E. intros [= <-]. exists [], v', l. subst. easy.
  - destruct (find_idx k l) as [j|] eqn:Ef; [|easy]. cbn. intros [= <-].
    destruct (IH j eq_refl) as (l1 & v & l2 & -> & Hl & Hn).
    exists ((k', v') :: l1), v, l2. cbn. apply str_eqb_neq in E. intuition.
Qed.

Lemma set_nth_app {A} (l1 : list A) a x l2 : set_nth (length l1) x (l1 ++ a :: l2) = l1 ++ x :: l2.
Proof. induction l1 as [|b l1 IH]; cbn; [easy|]. now rewrite IH. Qed.

Lemma remove_nth_app {A} (l1 : list A) a l2 : remove_nth (length l1) (l1 ++ a :: l2) = l1 ++ l2.
Proof. induction l1 as [|b l1 IH]; cbn; [easy|]. now rewrite IH. Qed.

(** set_tag either replaces the first occurrence or appends. *)
Lemma tags_set_shape k v l :
  (~ In k (map fst l) /\ tags_set k v l = l ++ [(k, v)]) \/
  (exists l1 v0 l2, l = l1 ++ (k, v0) :: l2 /\ ~ In k (map fst l1)
     /\ tags_set k v l = l1 ++ (k, v) :: l2).
Proof.
  unfold tags_set. destruct (find_idx k l) as [i|] eqn:E.
  - right. apply find_idx_some in E as (l1 & v0 & l2 & -> & <- & Hn).
    exists l1, v0, l2. now rewrite set_nth_app.
  - left. now apply find_idx_none in E.
Qed.

Lemma tags_unset_shape k l :
  (~ In k (map fst l) /\ tags_unset k l = l) \/
  (exists l1 v0 l2, l = l1 ++ (k, v0) :: l2 /\ ~ In k (map fst l1)
     /\ tags_unset k l = l1 ++ l2).
Proof.
  unfold tags_unset. destruct (find_idx k l) as [i|] eqn:E.
  - right. apply find_idx_some in E as (l1 & v0 & l2 & -> & <- & Hn).
    exists l1, v0, l2. now rewrite remove_nth_app.
  - left. now apply find_idx_none in E.
Qed.

Lemma tags_get_set_same k v l : tags_get k (tags_set k v l) = Some v.
Proof.
  destruct (tags_set_shape k v l) as [(Hn & ->)|(l1 & v0 & l2 & -> & Hn & ->)];
    rewrite tags_get_app; apply tags_get_None in Hn; rewrite Hn, tags_get_cons, str_eqb_refl; easy.
Qed.

Lemma tags_get_set_other k k' v l : k' <> k -> tags_get k' (tags_set k v l) = tags_get k' l.
Proof.
  intros H. assert (E : str_eqb k k' = false) by (apply str_eqb_neq; congruence).
  destruct (tags_set_shape k v l) as [(Hn & ->)|(l1 & v0 & l2 & -> & Hn & ->)];
    rewrite !tags_get_app, ?tags_get_cons, E, ?tags_get_nil; now destruct (tags_get k' _).
Qed.

Lemma tags_get_unset_other k k' l : k' <> k -> tags_get k' (tags_unset k l) = tags_get k' l.
Proof.
  intros H. assert (E : str_eqb k k' = false) by (apply str_eqb_neq; congruence).
  destruct (tags_unset_shape k l) as [(Hn & ->)|(l1 & v0 & l2 & -> & Hn & ->)]; [easy|].
  now rewrite !tags_get_app, tags_get_cons, E.
Qed.

Lemma tags_set_keys_nodup k v l : NoDup (map fst l) -> NoDup (map fst (tags_set k v l)).
Proof.
  intros HN.
  destruct (tags_set_shape k v l) as [(Hn & ->)|(l1 & v0 & l2 & -> & Hn & ->)].
  - rewrite map_app. cbn. 
    clear v. revert HN Hn. generalize (map fst l) as ks. induction ks as [|a ks IH]; cbn; intros HN Hn.
    + constructor; [easy|constructor].
    + inversion HN; subst. constructor.
      * rewrite in_app_iff. cbn. intuition.
      * apply IH; intuition.
  - rewrite map_app in *. exact HN.
Qed.

Lemma tags_unset_keys_nodup k l : NoDup (map fst l) -> NoDup (map fst (tags_unset k l)).
Proof.
  intros HN.
  destruct (tags_unset_shape k l) as [(Hn & ->)|(l1 & v0 & l2 & -> & Hn & ->)]; [easy|].
  rewrite map_app in *. cbn in HN. now apply NoDup_remove_1 in HN.
Qed.

Lemma tags_get_unset_same k l : NoDup (map fst l) -> tags_get k (tags_unset k l) = None.
Proof.
  intros HN. apply tags_get_None.
  destruct (tags_unset_shape k l) as [(Hn & ->)|(l1 & v0 & l2 & -> & Hn & ->)]; [easy|].
  rewrite map_app in *. cbn in HN. now apply NoDup_remove_2 in HN.
Qed.

Lemma tags_op_get p k l : NoDup (map fst l) ->
  tags_get k (tags_op p l) = tag_effect k (tags_get k l) p.
Proof.
  intros HN. destruct p as [| | | | | | |k' v|k'| | | |]; cbn [tags_op tag_effect]; try easy.
  - destruct (str_eq_dec k' k) as [->|Hk]; [apply tags_get_set_same|apply tags_get_set_other; congruence].
  - destruct (str_eq_dec k' k) as [->|Hk]; [now apply tags_get_unset_same|apply tags_get_unset_other; congruence].
Qed.

Lemma tags_op_nodup p l : NoDup (map fst l) -> NoDup (map fst (tags_op p l)).
Proof.
  intros HN. destruct p; cbn; try easy; [now apply tags_set_keys_nodup|now apply tags_unset_keys_nodup].
Qed.

(** ** Objects *)

Lemma s_tags_op o p : s_tags (s_op o p) = tags_op p (s_tags o).
Proof. now destruct o. Qed.

Lemma s_tags_ops o ps : s_tags (s_ops o ps) = fold_left (fun t p => tags_op p t) ps (s_tags o).
Proof.
  unfold s_ops. revert o; induction ps as [|p ps IH]; intros o; cbn; [easy|].
  now rewrite IH, s_tags_op.
Qed.

Lemma a_tags_op o p : a_tags (a_op o p) = tags_op p (a_tags o).
Proof.
  destruct o as [n|w|r]; try easy. destruct n as [m [t|] ll]; cbn; destruct p; easy.
Qed.

Lemma a_tags_ops o ps : a_tags (a_ops o ps) = fold_left (fun t p => tags_op p t) ps (a_tags o).
Proof.
  unfold a_ops. revert o; induction ps as [|p ps IH]; intros o; cbn; [easy|].
  now rewrite IH, a_tags_op.
Qed.

Lemma s_tag_eq o k : s_tag o k = tags_get k (s_tags o).
Proof. now destruct o. Qed.
Lemma a_tag_eq o k : a_tag o k = tags_get k (a_tags o).
Proof. destruct o as [[m [t|] ll]|w|r]; easy. Qed.
Lemma a_num_tags_eq o : a_num_tags o = length (a_tags o).
Proof. destruct o as [[m [t|] ll]|w|r]; easy. Qed.
Lemma a_untagged_eq o : a_untagged o = Nat.eqb (a_num_tags o) 0.
Proof. destruct o as [[m [[|a t]|] ll]|[m [|a t] w]|[m [|a t] r]]; easy. Qed.

Lemma tags_ops_inv ps t k : NoDup (map fst t) ->
  NoDup (map fst (fold_left (fun t p => tags_op p t) ps t)) /\
  tags_get k (fold_left (fun t p => tags_op p t) ps t) = fold_left (tag_effect k) ps (tags_get k t).
Proof.
  revert t; induction ps as [|p ps IH]; intros t HN; cbn; [easy|].
  rewrite <- tags_op_get by easy. apply IH. now apply tags_op_nodup.
Qed.

(** The shared content of the two map theorems. *)
Lemma tag_map_facts ps t : t = [] ->
  let t' := fold_left (fun t p => tags_op p t) ps t in
  (forall k, tags_get k t' = expected_tag ps k) /\
  NoDup (map fst t') /\
  (forall k v, In (k, v) t' <-> expected_tag ps k = Some v) /\
  (length t' = O <-> forall k, expected_tag ps k = None).
Proof.
  intros ->. cbn zeta.
  set (t' := fold_left _ ps []).
  assert (HN : NoDup (map fst t')).
  { apply (tags_ops_inv ps [] []). constructor. }
  assert (HG : forall k, tags_get k t' = expected_tag ps k).
  { intros k. apply (tags_ops_inv ps [] k). constructor. }
  split; [exact HG|]. split; [exact HN|]. split.
  - intros k v. rewrite <- HG. now apply tags_get_unique.
  - split.
    + intros HL k. rewrite <- HG. destruct t'; easy.
    + intros HE. destruct t' as [|[k v] r]; [easy|]. specialize (HE k).
      rewrite <- HG, tags_get_cons, str_eqb_refl in HE. easy.
Qed.

Lemma is_some_iff {A} (o : option A) : is_some o = true <-> exists a, o = Some a.
Proof. destruct o; cbn; split; intros H; try easy; [now exists a|now destruct H]. Qed.

(** ** Conversion *)

Lemma tags_set_fresh_fold l acc :
  NoDup (map fst (acc ++ l)) ->
  fold_left (fun t '(k, v) => tags_set k v t) l acc = acc ++ l.
Proof.
  revert acc; induction l as [|[k v] l IH]; intros acc HN; cbn; [now rewrite app_nil_r|].
  assert (Hk : ~ In k (map fst acc)).
  { rewrite map_app in HN. cbn in HN. apply NoDup_remove_2 in HN. rewrite in_app_iff in HN. tauto. }
  destruct (tags_set_shape k v acc) as [(_ & ->)|(l1 & v0 & l2 & -> & _ & _)].
  - rewrite IH; rewrite <- app_assoc; easy.
  - exfalso. apply Hk. rewrite map_app, in_app_iff. right. now left.
Qed.

Lemma convert_tags l : NoDup (map fst l) ->
  fold_left (fun t '(k, v) => tags_set k v t) l [] = l.
Proof. intros H. now rewrite tags_set_fresh_fold. Qed.

Lemma meta_eta m : mset_user (m_user m) (mset_uid (m_uid m) (mset_timestamp (m_timestamp m)
             (mset_changeset (m_changeset m) (mset_deleted (m_deleted m)
             (mset_version (m_version m) (default_meta (m_id m))))))) = m.
Proof. now destruct m. Qed.

Lemma convert_get o f : NoDup (map fst (a_tags o)) -> s_get (sobj_of_aobj o) f = a_get o f.
Proof.
  intros HN. destruct o as [n|w|r]; cbn [sobj_of_aobj] in *;
    unfold snode_of_anode, sway_of_away, srel_of_arel; rewrite meta_eta.
  - rewrite convert_tags by easy. now destruct f.
  - cbn [a_tags] in HN. rewrite convert_tags by easy. now destruct f.
  - cbn [a_tags] in HN. rewrite convert_tags by easy. now destruct f.
Qed.

(** After conversion a key has its last value. *)
Lemma convert_tag_last l acc k :
  tags_get k (fold_left (fun t '(k, v) => tags_set k v t) l acc)
  = match tags_get k (rev l) with Some v => Some v | None => tags_get k acc end.
Proof.
  revert acc; induction l as [|[k' v] l IH]; intros acc; cbn [fold_left rev]; [easy|].
  rewrite IH, tags_get_app, tags_get_cons, tags_get_nil.
  destruct (tags_get k (rev l)); [easy|].
  destruct (str_eqb k' k) eqn:E.
  - apply str_eqb_eq in E. subst. apply tags_get_set_same.
  - apply str_eqb_neq in E. rewrite tags_get_set_other by congruence. easy.
Qed.

(** ** Ways *)

Lemma hd_error_first {A} (l : list A) a : hd_error l = Some a <-> first_is l a.
Proof.
  unfold first_is. destruct l as [|b l]; cbn; split; intros H; try easy.
  - now destruct H.
  - injection H as ->. now exists l.
  - destruct H as (r & H). injection H as -> _. easy.
Qed.

Lemma hd_error_last {A} (l : list A) a : hd_error (rev l) = Some a <-> last_is l a.
Proof.
  rewrite hd_error_first. unfold first_is, last_is. split; intros (r & H).
  - exists (rev r). apply (f_equal (@rev A)) in H. rewrite rev_involutive in H. now cbn in H.
  - exists (rev r). subst. now rewrite rev_app_distr.
Qed.

Lemma is_closed_iff w : is_closed w = true <-> exists a, first_is (sw_nodes w) a /\ last_is (sw_nodes w) a.
Proof.
  unfold is_closed. split.
  - destruct (hd_error (sw_nodes w)) as [a|] eqn:E1; [|easy].
    destruct (hd_error (rev (sw_nodes w))) as [b|] eqn:E2; [|easy].
    intros H. apply Z.eqb_eq in H. subst b. exists a.
    split; [now apply hd_error_first|now apply hd_error_last].
  - intros (a & H1 & H2). apply hd_error_first in H1. apply hd_error_last in H2.
    rewrite H1, H2. apply Z.eqb_refl.
Qed.

(** ** Readers *)

Lemma drain_filtered_spec {St A B} (next : St -> option A * St) (f : A -> option B) fuel st l :
  drain next fuel st = Some l -> drain_filtered next f fuel st = Some (filter_map f l).
Proof.
  revert st l. induction fuel as [fuel IH] using lt_wf_ind. intros st l H.
  destruct fuel as [|n]; [easy|].
  cbn [drain_filtered].
  assert (G : forall m st l, (m <= S n)%nat -> drain next m st = Some l ->
    match filtered_next next f m st with
    | None => False
    | Some (None, _) => filter_map f l = []
    | Some (Some b, st') => exists l' m', (m' < m)%nat /\ drain next m' st' = Some l' /\ filter_map f l = b :: filter_map f l'
    end).
  { clear. induction m as [|m IHm]; intros st l Hm H; [easy|]. cbn in H |- *.
    destruct (next st) as [[a|] st'].
    - destruct (drain next m st') as [l'|] eqn:E; [|easy]. cbn in H. injection H as <-. cbn.
      destruct (f a) as [b|].
      + exists l', m. repeat split; [lia|easy].
      + specialize (IHm st' l' ltac:(lia) E).
        destruct (filtered_next next f m st') as [[[b|] st'']|]; try easy.
        destruct IHm as (l'' & m' & H1 & H2 & H3). exists l'', m'. repeat split; [lia|easy|easy].
    - now injection H as <-. }
  specialize (G (S n) st l (le_n _) H).
  destruct (filtered_next next f (S n) st) as [[[b|] st']|]; [|now rewrite G|easy].
  destruct G as (l' & m' & Hm & Hd & ->).
  assert (Hmono : forall a b st l, (a <= b)%nat -> drain next a st = Some l -> drain next b st = Some l).
  { clear. induction a as [|a IHa]; intros b st l Hab H; [easy|]. destruct b as [|b]; [lia|].
    cbn in *. destruct (next st) as [[x|] st']; [|easy].
    destruct (drain next a st') as [l'|] eqn:E; [|easy]. now rewrite (IHa b st' l' ltac:(lia) E). }
  rewrite (IH n (Nat.lt_succ_diag_r n) st' l'); [easy|].
  apply (Hmono m' n); [lia|easy].
Qed.
