(** The reader against SpecXmlRead. *)
From Coq Require Import String ZArith List Bool Lia Permutation.
From Coq Require Import ZifyBool ZifyNat.
From Verif Require Import Base Ints Timestamp Obj Coord XmlToken XmlRead SpecXmlRead.
Import ListNotations.
Open Scope Z_scope.

(** ** swap_remove *)

Lemma nth_error_last {A} (l : list A) x : l <> [] -> nth_error l (length l - 1) = Some x ->
  l = removelast l ++ [x].
Proof.
  intros Hl H. destruct (exists_last Hl) as (l' & y & ->).
  rewrite removelast_last. rewrite app_length in H. cbn in H.
  rewrite nth_error_app2 in H by lia. replace (length l' + 1 - 1 - length l')%nat with O in H by lia.
  cbn in H. injection H as ->. easy.
Qed.

Lemma set_nth_perm {A} (l : list A) i x y : nth_error l i = Some x ->
  Permutation (y :: l) (x :: set_nth i y l).
Proof.
  revert i. induction l as [|a l IH]; intros [|i] H; cbn in *; try discriminate.
  - injection H as ->. apply perm_swap.
  - rewrite perm_swap. rewrite (IH _ H). apply perm_swap.
Qed.

Lemma swap_remove_perm {A} (l : list A) i x : nth_error l i = Some x ->
  Permutation l (x :: swap_remove i l).
Proof.
  intros H. unfold swap_remove.
  assert (Hi : (i < length l)%nat) by (apply nth_error_Some; congruence).
  destruct (nth_error l (length l - 1)) as [y|] eqn:El.
  - assert (Hl : l <> []) by (destruct l; [now destruct i|discriminate]).
    pose proof (nth_error_last l y Hl El) as E.
    destruct (Nat.eqb i (length l - 1)) eqn:Ei.
    + apply Nat.eqb_eq in Ei. subst i. rewrite El in H. injection H as ->.
      rewrite E at 1. symmetry. apply Permutation_cons_append.
    + apply Nat.eqb_neq in Ei.
      assert (Hx : nth_error (removelast l) i = Some x).
      { rewrite E in H. rewrite nth_error_app1 in H; [easy|].
        rewrite E in Hi at 1. rewrite app_length in Hi. cbn in Hi.
        assert (length l = length (removelast l) + 1)%nat by (rewrite E at 1; rewrite app_length; cbn; lia).
        lia. }
      rewrite E at 1. rewrite <- Permutation_cons_append. now apply set_nth_perm.
  - apply nth_error_None in El. lia.
Qed.

(** ** get_attr *)

Lemma attribute_in l k v : NoDup (map fst l) -> attribute l k = Some v <-> In (lit k, v) l.
Proof.
  induction l as [|[k' v'] l IH]; cbn; intros H; [easy|]. inv H.
  destruct (str_eqb k' (lit k)) eqn:E.
  - apply str_eqb_eq in E. subst k'. split; [intros [= ->]; auto|].
    intros [[= ->]|Hin]; [easy|]. elim H2. apply (in_map fst _ _ Hin).
  - apply str_eqb_neq in E. rewrite (IH H3). split; [auto|]. intros [[= -> ->]|]; [now elim E|easy].
Qed.

Lemma attribute_perm l l' k : NoDup (map fst l) -> Permutation l l' -> attribute l k = attribute l' k.
Proof.
  intros H P.
  assert (H' : NoDup (map fst l')) by (eapply Permutation_NoDup; [apply Permutation_map, P|exact H]).
  destruct (attribute l k) as [v|] eqn:E.
  - apply attribute_in in E; [|easy]. symmetry. apply attribute_in; [easy|].
    now apply (Permutation_in _ P).
  - destruct (attribute l' k) as [v|] eqn:E'; [|easy].
    apply attribute_in in E'; [|easy]. apply Permutation_sym in P.
    apply (Permutation_in _ P) in E'. apply attribute_in in E'; [congruence|easy].
Qed.

Lemma attr_position_spec k l :
  match attr_position (lit k) l with
  | Some i => exists v, nth_error l i = Some (lit k, v) /\ attribute l k = Some v
  | None => attribute l k = None
  end.
Proof.
  induction l as [|[k' v'] l IH]; cbn; [easy|].
  destruct (str_eqb k' (lit k)) eqn:E.
  - apply str_eqb_eq in E as ->. now exists v'.
  - destruct (attr_position (lit k) l) as [i|]; cbn; exact IH.
Qed.

Lemma get_attr_spec k l : NoDup (map fst l) ->
  exists l', get_attr (lit k) l = (attribute l k, l') /\ NoDup (map fst l') /\
    forall k', k' <> k -> attribute l' k' = attribute l k'.
Proof.
  intros H. unfold get_attr. pose proof (attr_position_spec k l) as S.
  destruct (attr_position (lit k) l) as [i|].
  - destruct S as (v & E1 & E2). rewrite E1, E2. cbn [opt_map snd].
    exists (swap_remove i l). pose proof (swap_remove_perm l i _ E1) as P.
    assert (H' : NoDup (map fst ((lit k, v) :: swap_remove i l)))
      by (eapply Permutation_NoDup; [apply Permutation_map, P|exact H]).
    split; [easy|]. split; [cbn in H'; now inv H'|].
    intros k' Hk. rewrite (attribute_perm _ _ k' H P). cbn.
    destruct (str_eqb (lit k) (lit k')) eqn:E; [|easy].
    apply str_eqb_eq in E. elim Hk.
    assert (I : forall a b, lit a = lit b -> a = b).
    { induction a as [|x a IH]; intros [|y b] Hab; try discriminate; [easy|].
      cbn in Hab. injection Hab as H1 H2. f_equal; [|now apply IH].
      apply N2Z.inj in H1. rewrite <- (Ascii.ascii_N_embedding x), <- (Ascii.ascii_N_embedding y).
      now rewrite H1. }
    now apply I.
  - exists l. rewrite S. auto.
Qed.

Ltac next_attr :=
  match goal with
  | |- (let '(_, _) := get_attr (lit ?k) ?l in _) = _ =>
      let l' := fresh "l" in let H := fresh "Hn" in let E := fresh "Ha" in
      let Eq := fresh "Eq" in
      destruct (get_attr_spec k l ltac:(assumption)) as (l' & Eq & H & E);
      rewrite Eq; clear Eq; cbv beta iota
  end.

Lemma deleted_of_spec v : deleted_of v =
  match v with Some v => str_eqb v (lit "false") | None => false end.
Proof.
  destruct v as [v|]; [|easy]. unfold deleted_of, name_is, opt_bind.
  destruct (str_eqb v (lit "true")) eqn:E1.
  - apply str_eqb_eq in E1 as ->. reflexivity.
  - now destruct (str_eqb v (lit "false")).
Qed.

Lemma get_tags_spec els : Forall distinct_attrs els -> get_tags els = filter_map tag_of els.
Proof.
  induction 1 as [|e els He _ IH]; [easy|]. unfold get_tags in *. cbn [filter_map].
  rewrite IH. clear IH. destruct e as [n l| |]; try easy. cbn [distinct_attrs tag_of] in *.
  unfold name_is. destruct (str_eqb n (lit "tag")); [|easy].
  destruct (get_attr_spec "k" l He) as (l1 & -> & H1 & A1).
  destruct (get_attr_spec "v" l1 H1) as (l2 & -> & H2 & A2).
  rewrite A1 by discriminate. reflexivity.
Qed.

Lemma get_nodes_spec els : Forall distinct_attrs els -> get_nodes els = filter_map ref_of els.
Proof.
  induction 1 as [|e els He _ IH]; [easy|]. unfold get_nodes in *. cbn [filter_map].
  rewrite IH. clear IH. destruct e as [n l| |]; try easy. cbn [distinct_attrs ref_of] in *.
  unfold name_is. destruct (str_eqb n (lit "nd")); [|easy].
  destruct (get_attr_spec "ref" l He) as (l1 & -> & H1 & A1). reflexivity.
Qed.

Lemma get_members_spec els : Forall distinct_attrs els -> get_members els = filter_map member_of els.
Proof.
  induction 1 as [|e els He _ IH]; [easy|]. unfold get_members in *. cbn [filter_map].
  rewrite IH. clear IH. destruct e as [n l| |]; try easy. cbn [distinct_attrs member_of] in *.
  unfold name_is. destruct (str_eqb n (lit "member")); [|easy].
  destruct (get_attr_spec "ref" l He) as (l1 & -> & H1 & A1).
  destruct (get_attr_spec "type" l1 H1) as (l2 & -> & H2 & A2).
  destruct (get_attr_spec "role" l2 H2) as (l3 & -> & H3 & A3).
  rewrite A2, !A1 by discriminate.
  destruct (opt_bind (attribute l "ref") parse_i64), (opt_bind (attribute l "type") objtype_of_str);
    try easy.
Qed.

Theorem obj_of_events_spec n l body : Forall distinct_attrs (EStart n l :: body) ->
  obj_name n = true ->
  obj_of_events (EStart n l :: body) = object_of n l body.
Proof.
  intros Hd Hn. pose proof (Forall_inv Hd) as Hl. cbn in Hl.
  unfold obj_of_events, object_of. rewrite <- !(get_tags_spec) by (now inv Hd).
  assert (Ec : forall s, obj_name n = true -> str_eqb s (lit "tag") = true \/ str_eqb s (lit "nd") = true
    \/ str_eqb s (lit "member") = true -> str_eqb n s = false).
  { intros s H1 H2. unfold obj_name, name_is in H1. 
    destruct (str_eqb n s) eqn:E; [|easy]. apply str_eqb_eq in E. subst s.
    destruct H2 as [H2|[H2|H2]]; apply str_eqb_eq in H2; subst n; discriminate. }
  assert (Et : get_tags (EStart n l :: body) = get_tags body).
  { unfold get_tags. cbn [filter_map]. unfold name_is.
    rewrite (Ec (lit "tag")); auto. }
  assert (En : get_nodes (EStart n l :: body) = filter_map ref_of body).
  { rewrite <- get_nodes_spec by (now inv Hd). unfold get_nodes. cbn [filter_map]. unfold name_is.
    rewrite (Ec (lit "nd")); auto. }
  assert (Em : get_members (EStart n l :: body) = filter_map member_of body).
  { rewrite <- get_members_spec by (now inv Hd). unfold get_members. cbn [filter_map]. unfold name_is.
    rewrite (Ec (lit "member")); auto. }
  unfold name_is in *.
  destruct (str_eqb n (lit "node")) eqn:E1.
  { unfold node_of. next_attr. unfold opt_bind at 1 3.
    destruct (opt_bind (attribute l "id") parse_i64) as [id|]; [|easy].
    do 6 next_attr. 
    repeat match goal with H : forall k', k' <> _ -> attribute ?a k' = attribute ?b k' |- _ =>
      rewrite !H by discriminate end.
    destruct (attribute l "lat") as [lat|]; cbn [opt_map opt_bind]; [|easy].
    next_attr.
    repeat match goal with H : forall k', k' <> _ -> attribute ?a k' = attribute ?b k' |- _ =>
      rewrite !H by discriminate end.
    destruct (attribute l "lon") as [lon|]; cbn [opt_map opt_bind]; [|easy].
    next_attr.
    repeat match goal with H : forall k', k' <> _ -> attribute ?a k' = attribute ?b k' |- _ =>
      rewrite !H by discriminate end.
    rewrite deleted_of_spec, Et. reflexivity. }
  destruct (str_eqb n (lit "way")) eqn:E2.
  { unfold way_of. next_attr. unfold opt_bind at 1 3.
    destruct (opt_bind (attribute l "id") parse_i64) as [id|]; [|easy].
    do 6 next_attr. 
    repeat match goal with H : forall k', k' <> _ -> attribute ?a k' = attribute ?b k' |- _ =>
      rewrite !H by discriminate end.
    rewrite deleted_of_spec, Et, En. reflexivity. }
  destruct (str_eqb n (lit "relation")) eqn:E3.
  { unfold relation_of. next_attr. unfold opt_bind at 1 3.
    destruct (opt_bind (attribute l "id") parse_i64) as [id|]; [|easy].
    do 6 next_attr. 
    repeat match goal with H : forall k', k' <> _ -> attribute ?a k' = attribute ?b k' |- _ =>
      rewrite !H by discriminate end.
    rewrite deleted_of_spec, Et, Em. reflexivity. }
  unfold obj_name, name_is in Hn. rewrite E1, E2, E3 in Hn. discriminate.
Qed.
