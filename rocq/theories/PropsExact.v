(** C10, C12, C15, C18, C56, C63, C65 continued: these properties hold only in part, and
    here is exactly where. *)
From Coq Require Import String ZArith List Bool Lia.
From Coq Require Import ZifyBool ZifyNat.
From Verif Require Import Base Ints Timestamp SpecCal TimestampFacts Obj SpecObj ObjFacts PropsTime PropsObj.
From Verif Require Import Json SpecJson JsonFacts PropsJson NodeStore PropsStore.
From Verif Require TagsTool PropsTool.
Import ListNotations.
Open Scope Z_scope.

(** ** C10 *)

(** An epoch number is shown faithfully exactly if it fits 32 bits with sign; the epoch
    number of a text is right exactly if it fits 32 bits without sign. *)
Theorem C10_exact :
  (forall t, CanonicalISO (to_iso_string (EpochNumber t)) t <-> in_i32 t) /\
  (forall s t, RFC3339 s t -> (to_epoch_number (ISOString s) = t <-> in_u32 t)).
Proof.
  destruct C10_faithful_partial as [A B]. split.
  - intros t. split; [|apply A]. intros H. destruct (Z_le_dec (-2^31) t), (Z_le_dec t (2^31 - 1)); try (unfold in_i32; lia);
      exfalso; refine (C10_outside_always_wrong t _ H); unfold in_i32; lia.
  - intros s t H. split; [|now apply B]. intros E. cbn [to_epoch_number] in E. unfold iso_to_epoch in E.
    destruct (parse_rfc3339 s); rewrite <- E; unfold in_u32; [|lia]. apply as_u32_range.
Qed.
Print Assumptions C10_exact.
Example C10_exact_ex : in_u32 4102444800 /\ ~ in_i32 4102444800 /\
  to_epoch_number (ISOString (lit "2100-01-01T00:00:00Z")) = 4102444800 /\
  to_iso_string (EpochNumber 4102444800) = lit "1963-11-25T17:31:44Z".
Proof. split; [unfold in_u32; lia|]. split; [unfold in_i32; lia|]. split; vm_compute; reflexivity. Qed.

(** ** C12 *)

(** Equality fails to be transitive exactly on two different texts with the same epoch
    number, compared through that number. *)
Theorem C12_exact : forall a b c, timestamp_eqb a b = true -> timestamp_eqb b c = true ->
  (timestamp_eqb a c = false <->
   exists x y, a = ISOString x /\ b = EpochNumber (to_epoch_number a) /\ c = ISOString y /\ x <> y).
Proof.
  intros a b c Hab Hbc. split.
  - intros H. destruct a as [x|t], b as [y|u], c as [z|v]; cbn [timestamp_eqb to_epoch_number] in *;
      try (apply str_eqb_eq in Hab; subst); try (apply str_eqb_eq in Hbc; subst); try lia.
    + rewrite str_eqb_refl in H. discriminate.
    + exists x, z. repeat split; [f_equal; lia|]. intros ->. rewrite str_eqb_refl in H. discriminate.
  - intros (x & y & -> & -> & -> & Hne). cbn [timestamp_eqb]. now apply str_eqb_neq.
Qed.
Print Assumptions C12_exact.

(** ** Repeated keys *)

(** The values an object has for a key, in order. *)
Definition values (k : str) (l : list (str * str)) : list str :=
  map snd (filter (fun p => if str_eq_dec (fst p) k then true else false) l).
(** The first and the last of them are the same (or there are none). *)
Definition one_value (k : str) (l : list (str * str)) : Prop := hd_error (values k l) = hd_error (rev (values k l)).

Lemma values_cons k a v l : values k ((a, v) :: l) = if str_eq_dec a k then v :: values k l else values k l.
Proof. unfold values. cbn [filter fst]. destruct (str_eq_dec a k); reflexivity. Qed.
Lemma values_app k a b : values k (a ++ b) = values k a ++ values k b.
Proof. unfold values. now rewrite filter_app, map_app. Qed.
Lemma get_values k l : tags_get k l = hd_error (values k l).
Proof.
  induction l as [|[a v] l IH]; [reflexivity|]. rewrite ObjFacts.tags_get_cons, values_cons.
  destruct (str_eq_dec a k) as [->|E]; [now rewrite str_eqb_refl|]. apply str_eqb_neq in E. now rewrite E.
Qed.
Lemma values_rev k l : values k (rev l) = rev (values k l).
Proof.
  induction l as [|[a v] l IH]; [reflexivity|]. cbn [rev]. rewrite values_app, IH, !values_cons.
  destruct (str_eq_dec a k); cbn [rev]; [reflexivity|]. unfold values. cbn. apply app_nil_r.
Qed.
Lemma values_notin k l : ~ In k (map fst l) -> values k l = [].
Proof.
  intros H. apply tags_get_None in H. rewrite get_values in H. destruct (values k l); [reflexivity|discriminate].
Qed.
Lemma last_value_values k l : last_value l k = hd_error (rev (values k l)).
Proof.
  unfold last_value. rewrite <- values_rev, <- get_values.
  rewrite <- (fold_left_rev_right (fun p cur => if str_eq_dec (fst p) k then Some (snd p) else cur)).
  induction (rev l) as [|[a v] r IH]; [reflexivity|]. cbn [fold_right fst snd]. rewrite ObjFacts.tags_get_cons.
  destruct (str_eq_dec a k) as [->|E]; [now rewrite str_eqb_refl|]. apply str_eqb_neq in E. now rewrite E.
Qed.
Lemma unset_values k l : values k (tags_unset k l) = tl (values k l).
Proof.
  destruct (tags_unset_shape k l) as [[H ->]|(l1 & v & l2 & E & Hn & ->)]; [now rewrite values_notin|]. rewrite E.
  rewrite !values_app, values_cons. rewrite (values_notin k l1 Hn). destruct (str_eq_dec k k); [reflexivity|congruence].
Qed.

(** ** C15 *)

(** unset_tag takes the first value away, so it removes the tag exactly from objects
    that have at most one value for the key. *)
Theorem C15_exact :
  (forall o k, s_has_tag (s_op o (UnsetTag k)) k = false <-> (length (values k (s_tags o)) <= 1)%nat) /\
  (forall o k, a_has_tag (a_op o (UnsetTag k)) k = false <-> (length (values k (a_tags o)) <= 1)%nat).
Proof.
  split; intros o k; unfold s_has_tag, a_has_tag; rewrite ?s_tag_eq, ?a_tag_eq, ?s_tags_op, ?a_tags_op; cbn [tags_op];
    rewrite get_values, unset_values;
    [destruct (values k (s_tags o)) as [|? [|? ?]]|destruct (values k (a_tags o)) as [|? [|? ?]]];
    cbn [tl hd_error is_some length]; split; intros; try lia; try reflexivity; discriminate.
Qed.
Print Assumptions C15_exact.

(** ** C18 *)

(** A lookup gives the same before and after conversion exactly if the first and the
    last value of the key agree. *)
Theorem C18_exact : forall o k, s_tag (sobj_of_aobj o) k = a_tag o k <-> one_value k (a_tags o).
Proof.
  intros o k. destruct (C18_conversion_tag_partial o k) as (-> & -> & _). rewrite !get_values, values_rev.
  unfold one_value. split; congruence.
Qed.
Print Assumptions C18_exact.

(** ** C63 *)

(** A member of the JSON text has the value tag() returns exactly if the first and the
    last value of the key agree. *)
Theorem C63_exact :
  (forall o, valid_tags (s_tags o) -> exists m, parse_json (s_tags_json o) = Some (JObj m) /\
     forall k, member_value m k = opt_map JStr (s_tag o k) <-> one_value k (s_tags o)) /\
  (forall o, valid_tags (a_tags o) -> exists m, parse_json (a_tags_json o) = Some (JObj m) /\
     forall k, member_value m k = opt_map JStr (a_tag o k) <-> one_value k (a_tags o)).
Proof.
  assert (X : forall a b : option str, opt_map JStr a = opt_map JStr b <-> b = a).
  { intros [a|] [b|]; cbn [opt_map]; split; congruence. }
  split; intros o H.
  - destruct (C20_json_string o H) as (m & A & _ & B). exists m. split; [exact A|]. intros k.
    rewrite B, s_tag_eq, X, last_value_values, get_values. reflexivity.
  - destruct (C20_json_arc_rc o H) as (m & A & _ & B). exists m. split; [exact A|]. intros k.
    rewrite B, a_tag_eq, X, last_value_values, get_values. reflexivity.
Qed.
Print Assumptions C63_exact.

Example C15_C18_C63_ex :
  let t := [(lit "a", lit "1"); (lit "b", lit "2"); (lit "a", lit "3"); (lit "c", lit "4"); (lit "c", lit "4")] in
  values (lit "a") t = [lit "1"; lit "3"] /\ values (lit "c") t = [lit "4"; lit "4"] /\ values (lit "b") t = [lit "2"] /\
  ~ one_value (lit "a") t /\ one_value (lit "b") t /\ one_value (lit "c") t /\
  s_has_tag (s_op (SWay (SW PropsObj.ex_meta t [])) (UnsetTag (lit "b"))) (lit "b") = false /\
  s_has_tag (s_op (SWay (SW PropsObj.ex_meta t [])) (UnsetTag (lit "c"))) (lit "c") = true.
Proof. cbv zeta. repeat split; try (vm_compute; reflexivity). vm_compute. discriminate. Qed.

(** ** C56 *)

(** get answers like a map exactly for ids up to the highest one set whose position is
    not reserved. *)
Theorem C56_exact : forall ops id, Forall good_set ops -> 0 <= id ->
  (st_get (st_file (st_sets ops)) id = Ret (last_set ops id) <->
   (exists i p, In (i, p) ops /\ id <= i) /\ (forall p, last_set ops id = Some p -> ~ reserved p)).
Proof.
  intros ops id HF H0. split; [|intros [A B]; now apply C56_map_partial]. intros H. split.
  - destruct (existsb (fun o => id <=? fst o) ops) eqn:E.
    + apply existsb_exists in E. destruct E as ([i p] & Hi & L). cbn [fst] in L. exists i, p. split; [exact Hi|lia].
    + rewrite C56_beyond_refuted in H; [discriminate|exact HF|exact H0|]. intros i p Hi.
      destruct (Z_lt_le_dec i id) as [L|L]; [exact L|]. exfalso. enough (existsb (fun o => id <=? fst o) ops = true) by congruence.
      apply existsb_exists. exists (i, p). split; [exact Hi|]. cbn [fst]. lia.
  - intros p Hp Hr. rewrite (C56_reserved_refuted ops id p HF H0 Hp Hr), Hp in H. discriminate.
Qed.
Print Assumptions C56_exact.

(** ** C65 *)

(** The number on the line of a key is the number of changesets tagged with it exactly if
    no changeset repeats the key. *)
Theorem C65_exact : forall l k, PropsTool.uses k (PropsTool.all_tags l) = PropsTool.tagged_with k l <->
  Forall (fun c => (length (values k (snd c)) <= 1)%nat) l.
Proof.
  assert (U : forall k t, PropsTool.uses k t = Z.of_nat (length (values k t))).
  { intros k t. unfold PropsTool.uses, values. rewrite map_length. f_equal. f_equal. apply filter_ext. intros [a b]. cbn [fst].
    destruct (str_eq_dec a k) as [->|E]; [apply str_eqb_refl|now apply str_eqb_neq]. }
  assert (V : forall k t, existsb (fun kv : str * str => str_eqb (fst kv) k) t = negb (length (values k t) =? 0)%nat).
  { intros k t. induction t as [|[a b] t IH]; [reflexivity|]. cbn [existsb fst]. rewrite values_cons, IH.
    destruct (str_eq_dec a k) as [->|E]; [now rewrite str_eqb_refl|]. apply str_eqb_neq in E. now rewrite E. }
  assert (L : forall l k, PropsTool.tagged_with k l <= PropsTool.uses k (PropsTool.all_tags l)).
  { intros l k. unfold PropsTool.tagged_with. induction l as [|c l IH]; [reflexivity|]. cbn [PropsTool.all_tags flat_map filter].
    fold (PropsTool.all_tags l). rewrite PropsTool.uses_app, U, V. destruct (length (values k (snd c)) =? 0)%nat eqn:E; cbn [negb length]; lia. }
  intros l k. induction l as [|c l IH].
  - split; [constructor|reflexivity].
  - pose proof (L l k) as Q. unfold PropsTool.tagged_with in *. cbn [PropsTool.all_tags flat_map filter].
    fold (PropsTool.all_tags l). rewrite PropsTool.uses_app, U, V. destruct (length (values k (snd c)) =? 0)%nat eqn:E; cbn [negb length].
    + split; [intros H; constructor; [lia|apply IH; lia]|]. intros H. inversion H as [|? ? H1 H2]; subst. apply IH in H2. lia.
    + split; [intros H; constructor; [lia|apply IH; lia]|]. intros H. inversion H as [|? ? H1 H2]; subst. apply IH in H2. lia.
Qed.
Print Assumptions C65_exact.
Example C65_exact_ex : let l := [(2, [(lit "a", lit "1"); (lit "b", lit "2"); (lit "b", lit "2")]); (3, [(lit "a", lit "4")])] in
  map (fun k => (PropsTool.uses k (PropsTool.all_tags l), PropsTool.tagged_with k l)) [lit "a"; lit "b"; lit "c"] = [(2, 2); (2, 1); (0, 0)].
Proof. vm_compute. reflexivity. Qed.

(** ** C57 *)

(** Timestamps that compare equal. *)
Definition same_time (a b : option timestamp) : Prop :=
  match a, b with
  | Some t, Some u => timestamp_eqb t u = true
  | None, None => True
  | _, _ => False
  end.

(** Whether an object has a place for tags: an Arc/Rc node without tags need not have one. *)
Definition tag_list (o : aobj) : bool :=
  match o with ANode n => match an_tags n with Some _ => true | None => false end | _ => true end.

Lemma opt_eqb_iff {A} (f : A -> A -> bool) (R : forall a b, f a b = true <-> a = b) :
  forall a b, opt_eqb f a b = true <-> a = b.
Proof. intros [a|] [b|]; cbn; try easy. rewrite R. split; congruence. Qed.
Lemma list_eqb_iff {A} (f : A -> A -> bool) (R : forall a b, f a b = true <-> a = b) :
  forall a b, list_eqb f a b = true <-> a = b.
Proof.
  induction a as [|a l IH]; intros [|b m]; cbn; try easy. rewrite andb_true_iff, R, IH. split; [now intros [-> ->]|].
  intros H. now injection H.
Qed.
Lemma tag_eqb_iff a b : tag_eqb a b = true <-> a = b.
Proof.
  destruct a, b. unfold tag_eqb. cbn [fst snd]. rewrite andb_true_iff, !str_eqb_eq. split; [now intros [-> ->]|].
  intros H. now injection H.
Qed.
Lemma latlon_eqb_iff a b : latlon_eqb a b = true <-> a = b.
Proof.
  destruct a, b. unfold latlon_eqb. cbn [fst snd]. rewrite andb_true_iff, !Z.eqb_eq. split; [now intros [-> ->]|].
  intros H. now injection H.
Qed.
Lemma member_eqb_iff a b : member_eqb a b = true <-> a = b.
Proof.
  destruct a as [[t i] r], b as [[u j] s]. unfold member_eqb. rewrite !andb_true_iff, Z.eqb_eq, str_eqb_eq.
  assert (objtype_eqb t u = true <-> t = u) as -> by (destruct t, u; easy).
  split; [now intros [[-> ->] ->]|]. intros H. injection H. auto.
Qed.
Lemma meta_eqb_iff a b : meta_eqb a b = true <->
  m_id a = m_id b /\ m_version a = m_version b /\ m_deleted a = m_deleted b /\ m_changeset a = m_changeset b /\
  same_time (m_timestamp a) (m_timestamp b) /\ m_uid a = m_uid b /\ m_user a = m_user b.
Proof.
  unfold meta_eqb. rewrite !andb_true_iff, Z.eqb_eq, !(opt_eqb_iff _ Z.eqb_eq), (opt_eqb_iff _ str_eqb_eq), Bool.eqb_true_iff.
  assert (opt_eqb timestamp_eqb (m_timestamp a) (m_timestamp b) = true <-> same_time (m_timestamp a) (m_timestamp b)) as ->.
  { destruct (m_timestamp a), (m_timestamp b); cbn; easy. }
  tauto.
Qed.

(** Two objects are equal exactly if all getters agree, timestamps being compared with their
    own equality; two Arc/Rc nodes without tags must also both have a tag list, or neither. *)
Theorem C57_exact :
  (forall a b, s_eqb a b = true <->
     (forall f, f <> FTimestamp -> s_get a f = s_get b f) /\ same_time (m_timestamp (s_meta a)) (m_timestamp (s_meta b))) /\
  (forall a b, a_eqb a b = true <->
     (forall f, f <> FTimestamp -> a_get a f = a_get b f) /\ same_time (m_timestamp (a_meta a)) (m_timestamp (a_meta b))
     /\ tag_list a = tag_list b).
Proof.
  split; intros a b; (split;
  [ intros H; destruct a as [[? ? ?]|[? ? ?]|[? ? ?]], b as [[? ? ?]|[? ? ?]|[? ? ?]]; cbn in H |- *; try discriminate;
    rewrite !andb_true_iff, meta_eqb_iff in H;
    repeat match type of H with
    | context [list_eqb tag_eqb _ _ = true] => rewrite (list_eqb_iff _ tag_eqb_iff) in H
    | context [opt_eqb latlon_eqb _ _ = true] => rewrite (opt_eqb_iff _ latlon_eqb_iff) in H
    | context [list_eqb Z.eqb _ _ = true] => rewrite (list_eqb_iff _ Z.eqb_eq) in H
    | context [list_eqb member_eqb _ _ = true] => rewrite (list_eqb_iff _ member_eqb_iff) in H
    | context [opt_eqb (list_eqb tag_eqb) _ _ = true] => rewrite (opt_eqb_iff _ (list_eqb_iff _ tag_eqb_iff)) in H
    end;
    destruct H as [[(? & ? & ? & ? & ? & ? & ?) ?] ?]; subst; repeat split; try assumption; intros [] F; cbn; try easy; congruence
  | ]).
  - intros [H1 H2].
    pose proof (H1 FId ltac:(discriminate)); pose proof (H1 FVersion ltac:(discriminate)); pose proof (H1 FDeleted ltac:(discriminate));
    pose proof (H1 FChangeset ltac:(discriminate)); pose proof (H1 FUid ltac:(discriminate)); pose proof (H1 FUser ltac:(discriminate));
    pose proof (H1 FTags ltac:(discriminate)); pose proof (H1 FLatLon ltac:(discriminate)); pose proof (H1 FNodes ltac:(discriminate));
    pose proof (H1 FMembers ltac:(discriminate)); clear H1.
    destruct a as [[? ? ?]|[? ? ?]|[? ? ?]], b as [[? ? ?]|[? ? ?]|[? ? ?]]; cbn in *; try discriminate;
    rewrite !andb_true_iff, meta_eqb_iff, (list_eqb_iff _ tag_eqb_iff);
      [rewrite (opt_eqb_iff _ latlon_eqb_iff)|rewrite (list_eqb_iff _ Z.eqb_eq)|rewrite (list_eqb_iff _ member_eqb_iff)];
      repeat split; try assumption; congruence.
  - intros (H1 & H2 & H3).
    pose proof (H1 FId ltac:(discriminate)); pose proof (H1 FVersion ltac:(discriminate)); pose proof (H1 FDeleted ltac:(discriminate));
    pose proof (H1 FChangeset ltac:(discriminate)); pose proof (H1 FUid ltac:(discriminate)); pose proof (H1 FUser ltac:(discriminate));
    pose proof (H1 FTags ltac:(discriminate)); pose proof (H1 FLatLon ltac:(discriminate)); pose proof (H1 FNodes ltac:(discriminate));
    pose proof (H1 FMembers ltac:(discriminate)); clear H1.
    destruct a as [[? [|] ?]|[? ? ?]|[? ? ?]], b as [[? [|] ?]|[? ? ?]|[? ? ?]]; cbn in *; try discriminate;
    rewrite !andb_true_iff, meta_eqb_iff, ?(list_eqb_iff _ tag_eqb_iff), ?(opt_eqb_iff _ latlon_eqb_iff), ?(list_eqb_iff _ Z.eqb_eq),
      ?(list_eqb_iff _ member_eqb_iff);
      repeat split; try assumption; congruence.
Qed.
Print Assumptions C57_exact.
Example C57_exact_ex :
  let m t := Meta 1 None false None (Some t) None None in
  let x := SWay (SW (m (EpochNumber 1508000000)) [] [1]) in
  let y := SWay (SW (m (ISOString (lit "2017-10-14T16:53:20Z"))) [] [1]) in
  x <> y /\ s_eqb x y = true /\ s_eqb x (SWay (SW (m (EpochNumber 1508000000)) [] [1; 2])) = false
  /\ a_eqb (ANode (AN PropsObj.ex_meta None None)) (ANode (AN PropsObj.ex_meta (Some []) None)) = false.
Proof. cbv zeta. split; [discriminate|]. vm_compute. repeat split. Qed.
