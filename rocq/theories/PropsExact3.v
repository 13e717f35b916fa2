(** Exactly where more of the partly false properties of the PBF readers hold: C39, C62
    and C73. *)
From Coq Require Import String ZArith List Bool Lia.
From Coq Require Import ZifyBool ZifyNat.
From Verif Require Import Base Ints Utf8 Timestamp Obj SpecObj PbWire PbMsg PbMsgFacts PbfRead SpecPbf SpecPbfRead SpecIter
  PbfFacts PbfExact PbfEncode PbRange PbfSound PbfFrame PropsPbfFile PropsPbfBlock PropsPbfEdge PropsPbfText.
Import ListNotations.
Open Scope Z_scope.

(** ** C39 *)

(** The flag of a way or relation, and what the format says about it. *)
Definition flag_of (o : option info) : option bool := match o with Some inf => i_visible inf | None => None end.
Definition by_format (o : option info) : bool := match flag_of o with Some false => true | _ => false end.
(** The metadata messages of the objects of a group without dense nodes, in order. *)
Definition infos_of (g : pgroup) : list (option info) :=
  match pg_ways g with [] => map pr_info (pg_rels g) | ws => map pw_info ws end.

Lemma s_meta_deleted st o id m : obj_meta s_deleted (at_z st) o id = Ret m ->
  m_deleted m = match flag_of o with Some true => false | _ => true end.
Proof.
  intros H. apply obj_meta_inv in H as (ts & cs & uid & sid & name & v & dl & H). cbv zeta in H.
  destruct H as (E1 & _ & _ & _ & _ & _ & E & ->). cbn [m_deleted]. destruct o as [inf|]; [|discriminate E1].
  cbn [unwrap_or flag_of] in *. unfold s_deleted in E. injection E as <-. now destruct (i_visible inf) as [[|]|].
Qed.

Lemma s_objects_deleted {P} (info_of : P -> option info) (dec : list str -> P -> outcome sobj) st ps os :
  (forall p o, dec st p = Ret o -> m_deleted (s_meta o) = match flag_of (info_of p) with Some true => false | _ => true end) ->
  omapM (dec st) ps = Ret os ->
  Forall2 (fun inf o => m_deleted (s_meta o) = match flag_of inf with Some true => false | _ => true end) (map info_of ps) os.
Proof.
  intros H E. apply omapM_inv in E. induction E as [|p o ps os E _ IH]; [constructor|]. constructor; [now apply H|exact IH].
Qed.

Lemma Forall2_len {A B} (R : A -> B -> Prop) l l' : Forall2 R l l' -> length l = length l'.
Proof. induction 1; cbn; congruence. Qed.

(** A relation with more types than members: the type after the last member is one of
    the three, or not looked at. *)
Definition spare_type_known (chk : build) (p : prel) : Prop :=
  forall t, nth_error (pr_types p) (Nat.min (length (pr_memids p)) (length (pr_roles p))) = Some t ->
    a_member_rest chk (length (pr_types p)) (length (pr_memids p)) (length (pr_roles p)) = true -> 0 <= t <= 2.
Lemma spare_iff chk p : rest_known chk p = true <-> spare_type_known chk p.
Proof.
  unfold rest_known, rest_type, spare_type_known. destruct (nth_error (pr_types p) _) as [t|]; [|split; [discriminate|reflexivity]].
  destruct (a_member_rest chk _ _ _); [|split; [discriminate|reflexivity]]. destruct (member_type t) as [ty|] eqn:E; cbn [obind].
  - apply member_type_inv in E. split; [intros _ t' X _; injection X as <-; subst t; destruct ty; cbn; lia|reflexivity].
  - split; [discriminate|]. intros X. destruct (member_type_known t (X t eq_refl eq_refl)) as (ty & Y). congruence.
Qed.

(** The String reader says "deleted" for every object whose flag is not true; so it
    follows the format exactly when every object carries the flag, and that is also
    exactly when the Arc reader accepts the block, unless that stumbles over a member
    type that belongs to no member. *)
Theorem C39_exact : forall chk b g os, s_decode_block chk (OF true true true) b = Ret os ->
  pb_groups b = [g] -> pg_dense g = None ->
  Forall2 (fun inf o => m_deleted (s_meta o) = match flag_of inf with Some true => false | _ => true end) (infos_of g) os /\
  (Forall2 (fun inf o => m_deleted (s_meta o) = by_format inf) (infos_of g) os <->
   Forall (fun inf => flag_of inf <> None) (infos_of g)) /\
  ((exists ao, a_decode_block chk b = Ret ao) <->
   infos_of g <> [] /\ Forall (fun inf => flag_of inf <> None) (infos_of g) /\
   (pg_ways g = [] -> Forall (spare_type_known chk) (pg_rels g))).
Proof.
  intros chk b g os H Hg Hd. pose proof (arc_block_gen _ _ _ _ H Hg) as A.
  assert (D : Forall2 (fun inf o => m_deleted (s_meta o) = match flag_of inf with Some true => false | _ => true end) (infos_of g) os).
  { unfold s_decode_block in H. destruct (pb_strings b) as [raw|]; [|discriminate]. cbn [unwrap obind] in H. rewrite Hg in H.
    unfold s_decode_group in H. cbv zeta in H. cbn [f_nodes f_ways f_rels] in H. rewrite !andb_true_r, Hd in H.
    destruct (nonempty (pg_nodes g)); [discriminate|]. cbn [is_some] in H. unfold infos_of.
    destruct (pg_ways g) as [|w ws] eqn:Hw; cbn [nonempty] in H.
    - destruct (pg_rels g) as [|r rs] eqn:Hr; cbn [nonempty] in H; [injection H as <-; constructor|]. rewrite <- Hr in *.
      destruct (s_strings raw) as [st|]; [|discriminate]. cbn [obind] in H.
      eapply (s_objects_deleted pr_info (s_decode_rel chk) st); [|exact H].
      intros p o E. unfold s_decode_rel in E. binds E. injection E as <-. cbn [s_meta sr_meta]. eapply s_meta_deleted. eassumption.
    - rewrite <- Hw in *. destruct (s_strings raw) as [st|]; [|discriminate]. cbn [obind] in H.
      eapply (s_objects_deleted pw_info (s_decode_way chk) st); [|exact H].
      intros p o E. unfold s_decode_way in E. binds E. injection E as <-. cbn [s_meta sw_meta]. eapply s_meta_deleted. eassumption. }
  split; [exact D|]. split.
  - clear -D. induction D as [|inf o infs os E _ IH]; [split; constructor|]. split.
    + intros X. inversion X as [|? ? ? ? X1 X2]; subst. constructor; [|now apply IH]. rewrite E in X1. unfold by_format in X1.
      destruct (flag_of inf) as [[|]|]; discriminate.
    + intros X. inversion X as [|? ? X1 X2]; subst. constructor; [|now apply IH]. rewrite E. unfold by_format.
      destruct (flag_of inf) as [[|]|]; [reflexivity|reflexivity|easy].
  - assert (Fl : forall inf, flagged inf = true <-> flag_of inf <> None).
    { intros [inf|]; unfold flagged, flag_of; cbn [unwrap_or info0 i_visible].
      - destruct (i_visible inf); cbn; split; congruence.
      - cbn. split; congruence. }
    assert (R : arc_ready chk g = true <-> infos_of g <> [] /\ Forall (fun inf => flag_of inf <> None) (infos_of g) /\
      (pg_ways g = [] -> Forall (spare_type_known chk) (pg_rels g))).
    { unfold arc_ready, infos_of. rewrite Hd. cbn [is_some orb].
      assert (M : forall {P} (info_of : P -> option info) ps, forallb (fun p => flagged (info_of p)) ps = true <-> Forall (fun inf => flag_of inf <> None) (map info_of ps)).
      { intros P info_of ps. induction ps as [|p ps IH]; cbn [forallb map]; [split; constructor|]. rewrite andb_true_iff, IH, Fl.
        split; [intros (X & Y); now constructor|]. intros X. now inversion X. }
      destruct (pg_ways g) as [|w ws]; cbn [nonempty negb andb orb].
      - destruct (pg_rels g) as [|r rs]; cbn [nonempty andb]; [split; [discriminate|intros (X & _); now elim X]|].
        rewrite <- M. set (l := r :: rs) in *. assert (map pr_info l <> []) as Nl by (unfold l; discriminate). clearbody l.
        assert (F2 : forallb (fun p => rest_known chk p && flagged (pr_info p)) l = true <->
          forallb (fun p => flagged (pr_info p)) l = true /\ Forall (spare_type_known chk) l).
        { clear. induction l as [|p l IH]; cbn [forallb]; [split; [intros _; split; constructor|reflexivity]|].
          rewrite !andb_true_iff, IH, spare_iff. split; [intros ((X & Y) & U & V); repeat split; try assumption; now constructor|].
          intros ((X & Y) & U). inversion U; subst. easy. }
        rewrite F2. split; [intros (X & Y); easy|]. intros (_ & X & Y). split; [exact X|now apply Y].
      - rewrite orb_false_r, M. split; [intros X; split; [discriminate|split; [exact X|discriminate]]|now intros (_ & X & _)]. }
    rewrite <- R, A. destruct (arc_ready chk g); split; try easy; [now eexists|]. now intros (ao & X).
Qed.
Print Assumptions C39_exact.
Example C39_exact_ex : exists os, s_decode_block (plain true) (OF true true true) (way_block 1000 None 1000) = Ret os /\
  exists g, pb_groups (way_block 1000 None 1000) = [g] /\ pg_dense g = None /\ infos_of g <> [] /\
  ~ Forall (fun inf => flag_of inf <> None) (infos_of g).
Proof.
  eexists. split; [vm_compute; reflexivity|]. eexists. split; [reflexivity|]. split; [reflexivity|]. split; [discriminate|].
  intros H. inversion H as [|? ? H1 _]. now apply H1.
Qed.

(** ** C62 *)

Definition dropped_none (k v t i r : nat) : Prop := k = v /\ t = i /\ i = r.
Definition tag_count (o : sobj) : nat := length (s_tags o).
Definition member_count (o : sobj) : nat := match o with SRel r => length (sr_members r) | _ => O end.

(** Of every block a reader accepts: columns are cut to the shortest, and the String
    reader accepts keys and values only of equal length. *)
Theorem C62_exact : forall rt chk b raw os, decodes rt chk b raw os ->
  per_group b os (fun g l =>
    (pg_dense g = None -> pg_ways g <> [] ->
       Forall2 (fun p o => tag_count o = Nat.min (length (pw_keys p)) (length (pw_vals p))) (pg_ways g) l) /\
    (pg_dense g = None -> pg_ways g = [] ->
       Forall2 (fun p o => tag_count o = Nat.min (length (pr_keys p)) (length (pr_vals p)) /\
         member_count o = Nat.min (length (pr_types p)) (Nat.min (length (pr_memids p)) (length (pr_roles p)))) (pg_rels g) l)) /\
  (s_decode_block chk (OF true true true) b = Ret os -> forall g, In g (pb_groups b) -> pg_dense g = None ->
     Forall (fun p => length (pw_keys p) = length (pw_vals p)) (pg_ways g) /\
     (pg_ways g = [] -> Forall (fun p => length (pr_keys p) = length (pr_vals p)) (pg_rels g))).
Proof.
  intros rt chk b raw os H.
  assert (T : forall ks vs ts, tags_at raw (combine ks vs) ts -> length ts = Nat.min (length ks) (length vs)).
  { intros ks vs ts X. apply Forall2_len in X. now rewrite <- X, combine_length. }
  split.
  - eapply per_group_mono; [|eapply decoded_groups; exact H]. intros g l (_ & G2 & G3). split; intros Hd Hw.
    + eapply Forall2_mono; [|exact (G2 Hd Hw)]. intros p o (w & -> & _ & _ & X & _). exact (T _ _ _ X).
    + eapply Forall2_mono; [|exact (G3 Hd Hw)]. intros p o (r & -> & _ & _ & X & Y & _). split; [exact (T _ _ _ X)|exact Y].
  - intros E g Hin Hd. destruct (pb_groups b) as [|g0 [|g1 gs]] eqn:Hg; [contradiction| |].
    + destruct Hin as [->|[]].
      assert (N : ~ ((exists p, In p (pg_ways g) /\ length (pw_keys p) <> length (pw_vals p)) \/
                     (pg_ways g = [] /\ exists p, In p (pg_rels g) /\ length (pr_keys p) <> length (pr_vals p)))).
      { intros C. pose proof (C62_columns_partial chk b g Hg Hd C) as P. rewrite P in E. discriminate. }
      split.
      * apply Forall_forall. intros p Hp. destruct (Nat.eq_dec (length (pw_keys p)) (length (pw_vals p))) as [X|X]; [exact X|].
        elim N. left. now exists p.
      * intros Hw. apply Forall_forall. intros p Hp. destruct (Nat.eq_dec (length (pr_keys p)) (length (pr_vals p))) as [X|X]; [exact X|].
        elim N. right. split; [exact Hw|now exists p].
    + unfold s_decode_block in E. destruct (pb_strings b); [|discriminate]. cbn [unwrap obind] in E. rewrite Hg in E. discriminate.
Qed.
Print Assumptions C62_exact.

(** ** C73 *)

(** The object with another user id. *)
Definition meta_uid (u : Z) (m : meta) : meta :=
  Meta (m_id m) (m_version m) (m_deleted m) (m_changeset m) (m_timestamp m) (Some u) (m_user m).
Definition s_reuid (u : Z) (o : sobj) : sobj :=
  match o with
  | SNode n => SNode (SN (meta_uid u (sn_meta n)) (sn_tags n) (sn_latlon n))
  | SWay w => SWay (SW (meta_uid u (sw_meta w)) (sw_tags w) (sw_nodes w))
  | SRel r => SRel (SR (meta_uid u (sr_meta r)) (sr_tags r) (sr_members r))
  end.
Definition a_reuid (u : Z) (o : aobj) : aobj :=
  match o with
  | ANode n => ANode (AN (meta_uid u (an_meta n)) (an_tags n) (an_latlon n))
  | AWay w => AWay (AW (meta_uid u (aw_meta w)) (aw_tags w) (aw_nodes w))
  | ARel r => ARel (AR (meta_uid u (ar_meta r)) (ar_tags r) (ar_members r))
  end.

(** The messages with other user ids. *)
Definition di_reuid (us : list Z) (di : dense_info) : dense_info :=
  DenseInfo (di_version di) (di_timestamp di) (di_changeset di) us (di_user_sid di) (di_visible di).
Definition dn_reuid (us : list Z) (d : dense_nodes) : dense_nodes :=
  DenseNodes (dn_id d) (option_map (di_reuid us) (dn_info d)) (dn_lat d) (dn_lon d) (dn_keys_vals d).
Definition i_reuid (u : Z) (i : info) : info :=
  Info (i_version i) (i_timestamp i) (i_changeset i) (Some u) (i_user_sid i) (i_visible i).
Definition pw_reuid (u : Z) (p : pway) : pway := PWay (pw_id p) (pw_keys p) (pw_vals p) (option_map (i_reuid u) (pw_info p)) (pw_refs p).
Definition pr_reuid (u : Z) (p : prel) : prel :=
  PRel (pr_id p) (pr_keys p) (pr_vals p) (option_map (i_reuid u) (pr_info p)) (pr_roles p) (pr_memids p) (pr_types p).
Definition zip_with {A B C} (f : A -> B -> C) (l : list A) (l' : list B) : list C := map (fun p => f (fst p) (snd p)) (combine l l').

(** Dense nodes have the running sums; ways and relations each have their own. *)
Definition sums (us : list Z) : list Z := map (fun i => sum_to i us) (seq 0 (length us)).
Definition pg_reuid (us : list Z) (g : pgroup) : pgroup :=
  PGroup (pg_nodes g) (option_map (dn_reuid us) (pg_dense g)) (zip_with pw_reuid us (pg_ways g)) (zip_with pr_reuid us (pg_rels g)) (pg_changesets g).
Definition pb_reuid (us : list Z) (b : pblock) : pblock :=
  PBlock (pb_strings b) (map (pg_reuid us) (pb_groups b)) (pb_granularity b) (pb_lat_offset b) (pb_lon_offset b) (pb_date_granularity b).
(** The ids the objects then have. *)
Definition new_uids (us : list Z) (g : pgroup) : list Z := match pg_dense g with Some _ => sums us | None => us end.

Definition with_lu (s : dense_state) (u : Z) : dense_state :=
  DS (last_id s) (last_lat s) (last_lon s) (last_timestamp s) (last_changeset s) u (last_user_sid s) (kv_left s).

Lemma dense_meta_reuid chk dg user di i s id m ts cs uid sid us u lu :
  dense_meta chk dg user di i s id = Ret (m, (ts, cs, uid, sid)) ->
  nth_error us i = Some u -> 0 <= u + lu < 2^31 ->
  dense_meta chk dg user (di_reuid us di) i (with_lu s lu) id =
    if u + lu <? 2^31 - 1 then Ret (meta_uid (u + lu) m, (ts, cs, u + lu, sid)) else Panic.
Proof.
  intros H Hu R. unfold dense_meta in *. cbn [di_reuid di_version di_timestamp di_changeset di_uid di_user_sid di_visible
    with_lu last_id last_lat last_lon last_timestamp last_changeset last_uid last_user_sid].
  unfold at_ in *. rewrite Hu. binds H. injection H as <- <- <- <- <-.
  repeat first [progress cbn [obind] | match goal with E : ?e = Ret _ |- context [?e] => rewrite E end].
  cbn [unwrap obind]. rewrite arith_i32_ok by (unfold in_i32; lia). cbn [obind].
  repeat first [progress cbn [obind] | match goal with E : ?e = Ret _ |- context [?e] => rewrite E end].
  destruct (u + lu <? 2^31 - 1); [|reflexivity]. cbn [assert obind].
  repeat first [progress cbn [obind] | match goal with E : ?e = Ret _ |- context [?e] => rewrite E end].
  unfold meta_uid. cbn [m_id m_version m_deleted m_changeset m_timestamp m_user].
  replace (as_u32 (u + lu)) with (u + lu); [reflexivity|]. unfold as_u32. symmetry. apply Z.mod_small. lia.
Qed.

Lemma s_step_reuid chk gran lato lono dg st d di i s o s1 us u lu :
  s_dense_step chk gran lato lono dg st d di i s = Ret (o, s1) -> nth_error us i = Some u -> 0 <= u + lu < 2^31 ->
  s_dense_step chk gran lato lono dg st (dn_reuid us d) (di_reuid us di) i (with_lu s lu) =
    if u + lu <? 2^31 - 1 then Ret (s_reuid (u + lu) o, with_lu s1 (u + lu)) else Panic.
Proof.
  intros H Hu R. unfold s_dense_step in *. cbn [dn_reuid dn_id dn_lat dn_lon with_lu last_id last_lat last_lon kv_left].
  fold (with_lu s lu). binds H. injection H as <- <-.
  repeat first [progress cbn [obind] | match goal with E : ?e = Ret _ |- context [?e] => rewrite E end].
  match goal with E : dense_meta _ _ _ _ _ _ _ = Ret _ |- _ => rewrite (dense_meta_reuid _ _ _ _ _ _ _ _ _ _ _ _ us u lu E Hu R) end.
  destruct (u + lu <? 2^31 - 1); reflexivity.
Qed.
Lemma a_step_reuid chk gran lato lono dg st d di i s o s1 us u lu :
  a_dense_step chk gran lato lono dg st d di i s = Ret (o, s1) -> nth_error us i = Some u -> 0 <= u + lu < 2^31 ->
  a_dense_step chk gran lato lono dg st (dn_reuid us d) (di_reuid us di) i (with_lu s lu) =
    if u + lu <? 2^31 - 1 then Ret (a_reuid (u + lu) o, with_lu s1 (u + lu)) else Panic.
Proof.
  intros H Hu R. unfold a_dense_step in *. cbn [dn_reuid dn_id dn_lat dn_lon dn_keys_vals with_lu last_id last_lat last_lon kv_left].
  fold (with_lu s lu). binds H. injection H as <- <-.
  repeat first [progress cbn [obind] | match goal with E : ?e = Ret _ |- context [?e] => rewrite E end].
  match goal with E : dense_meta _ _ _ _ _ _ _ = Ret _ |- _ => rewrite (dense_meta_reuid _ _ _ _ _ _ _ _ _ _ _ _ us u lu E Hu R) end.
  destruct (u + lu <? 2^31 - 1); reflexivity.
Qed.

Definition is_largest (u : Z) : bool := u =? 2^31 - 1.

Lemma loop_reuid {A} (step step' : nat -> dense_state -> outcome (A * dense_state)) (f : Z -> A -> A) us :
  (forall i s o s1 u lu, step i s = Ret (o, s1) -> nth_error us i = Some u -> 0 <= u + lu < 2^31 ->
     step' i (with_lu s lu) = if u + lu <? 2^31 - 1 then Ret (f (u + lu) o, with_lu s1 (u + lu)) else Panic) ->
  forall n i s os, dense_loop step n i s = Ret os -> (i + n <= length us)%nat ->
  Forall (fun u => 0 <= u < 2^31) (map (fun j => sum_to j us) (seq i n)) ->
  dense_loop step' n i (with_lu s (total (firstn i us))) =
    if existsb is_largest (map (fun j => sum_to j us) (seq i n)) then Panic
    else Ret (zip_with f (map (fun j => sum_to j us) (seq i n)) os).
Proof.
  intros Hs. induction n as [|n IH]; intros i s os H L R; cbn [dense_loop seq map existsb] in *; [injection H as <-; reflexivity|].
  binds H. injection H as <-. inversion R as [|? ? R1 R2]; subst.
  destruct (nth_error us i) as [u|] eqn:Hu; [|apply nth_error_None in Hu; lia].
  pose proof (sum_to_snoc _ _ _ Hu) as Su. rewrite Su in R1.
  match goal with E : step i s = Ret _ |- _ => rewrite (Hs _ _ _ _ _ _ E Hu R1) end. rewrite Su. unfold is_largest at 1.
  destruct (u + total (firstn i us) <? 2^31 - 1) eqn:Lt.
  - replace (u + total (firstn i us) =? 2^31 - 1) with false by lia. cbn [orb obind].
    rewrite <- Su. change (sum_to i us) with (total (firstn (S i) us)) at 1.
    match goal with E : dense_loop step n (S i) _ = Ret _ |- _ => rewrite (IH _ _ _ E) by (try lia; exact R2) end.
    destruct (existsb _ _); reflexivity.
  - replace (u + total (firstn i us) =? 2^31 - 1) with true by lia. reflexivity.
Qed.

Lemma obj_meta_reuid del user o id m u : obj_meta del user o id = Ret m -> 0 <= u < 2^31 ->
  obj_meta del user (option_map (i_reuid u) o) id = Ret (meta_uid u m).
Proof.
  intros H R. apply obj_meta_inv in H as (ts & cs & uid & sid & name & v & dl & H). cbv zeta in H.
  destruct o as [inf|]; [|destruct H as (X & _); discriminate X]. cbn [unwrap_or option_map] in *.
  destruct H as (E1 & E2 & E3 & E4 & E5 & E6 & E7 & ->). unfold obj_meta. cbv zeta.
  cbn [unwrap_or i_reuid i_version i_timestamp i_changeset i_uid i_user_sid i_visible].
  rewrite E1, E2, E4, E5. cbn [unwrap obind]. rewrite E7. cbn [obind]. rewrite E6. cbn [obind].
  unfold meta_uid. cbn [m_id m_version m_deleted m_changeset m_timestamp m_user].
  replace (as_u32 u) with u; [reflexivity|]. unfold as_u32. symmetry. apply Z.mod_small. lia.
Qed.

Lemma omapM_reuid {P A} (dec : P -> outcome A) (g : Z -> P -> P) (f : Z -> A -> A) :
  (forall u p o, dec p = Ret o -> 0 <= u < 2^31 -> dec (g u p) = Ret (f u o)) ->
  forall us ps os, omapM dec ps = Ret os -> length us = length os -> Forall (fun u => 0 <= u < 2^31) us ->
  omapM dec (zip_with g us ps) = Ret (zip_with f us os).
Proof.
  intros Hd us ps os H. apply omapM_inv in H. revert us. induction H as [|p o ps os H _ IH]; intros us L R.
  - destruct us; [reflexivity|discriminate].
  - destruct us as [|u us]; [discriminate|]. inversion R; subst. unfold zip_with in *. cbn [combine map fst snd omapM].
    rewrite (Hd u p o H) by assumption. cbn [obind]. rewrite IH; [reflexivity| |assumption]. cbn in L. lia.
Qed.

Lemma s_way_reuid chk st u p o : s_decode_way chk st p = Ret o -> 0 <= u < 2^31 -> s_decode_way chk st (pw_reuid u p) = Ret (s_reuid u o).
Proof.
  intros H R. unfold s_decode_way in *. cbn [pw_reuid pw_id pw_keys pw_vals pw_info pw_refs]. binds H. injection H as <-.
  cbn [obind]. match goal with E : obj_meta _ _ _ _ = Ret _ |- _ => rewrite (obj_meta_reuid _ _ _ _ _ _ E R) end. reflexivity.
Qed.
Lemma a_way_reuid chk st u p o : a_decode_way chk st p = Ret o -> 0 <= u < 2^31 -> a_decode_way chk st (pw_reuid u p) = Ret (a_reuid u o).
Proof.
  intros H R. unfold a_decode_way in *. cbn [pw_reuid pw_id pw_keys pw_vals pw_info pw_refs]. binds H. injection H as <-.
  cbn [obind]. match goal with E : obj_meta _ _ _ _ = Ret _ |- _ => rewrite (obj_meta_reuid _ _ _ _ _ _ E R) end. reflexivity.
Qed.
Lemma s_rel_reuid chk st u p o : s_decode_rel chk st p = Ret o -> 0 <= u < 2^31 -> s_decode_rel chk st (pr_reuid u p) = Ret (s_reuid u o).
Proof.
  intros H R. unfold s_decode_rel in *. cbn [pr_reuid pr_id pr_keys pr_vals pr_info pr_roles pr_memids pr_types]. binds H. injection H as <-.
  cbn [obind]. match goal with E : zip_members _ _ _ _ = Ret _ |- _ => rewrite E end. cbn [obind].
  match goal with E : rest_type _ _ _ _ = Ret _ |- _ => rewrite E end. cbn [obind].
  match goal with E : obj_meta _ _ _ _ = Ret _ |- _ => rewrite (obj_meta_reuid _ _ _ _ _ _ E R) end. reflexivity.
Qed.
Lemma a_rel_reuid chk st u p o : a_decode_rel chk st p = Ret o -> 0 <= u < 2^31 -> a_decode_rel chk st (pr_reuid u p) = Ret (a_reuid u o).
Proof.
  intros H R. unfold a_decode_rel in *. cbn [pr_reuid pr_id pr_keys pr_vals pr_info pr_roles pr_memids pr_types]. binds H. injection H as <-.
  cbn [obind]. match goal with E : zip_members _ _ _ _ = Ret _ |- _ => rewrite E end. cbn [obind].
  match goal with E : rest_type _ _ _ _ = Ret _ |- _ => rewrite E end. cbn [obind].
  match goal with E : obj_meta _ _ _ _ = Ret _ |- _ => rewrite (obj_meta_reuid _ _ _ _ _ _ E R) end. reflexivity.
Qed.

Definition has_largest (us : list Z) (g : pgroup) : bool := is_some (pg_dense g) && existsb is_largest (new_uids us g).

(** Take any block a reader accepts and give its objects any other user ids from 0 up to
    2^31-1.  The reader accepts it exactly when no node of a dense group got the id
    2^31-1, and then the objects are the same but for their user ids. *)
Theorem C73_exact : forall chk b g us, pb_groups b = [g] -> Forall (fun u => 0 <= u < 2^31) (new_uids us g) ->
  (forall os, s_decode_block chk (OF true true true) b = Ret os -> length us = length os ->
     s_decode_block chk (OF true true true) (pb_reuid us b) =
       if has_largest us g then Panic else Ret (zip_with s_reuid (new_uids us g) os)) /\
  (forall os, a_decode_block chk b = Ret os -> length us = length os ->
     a_decode_block chk (pb_reuid us b) =
       if has_largest us g then Panic else Ret (zip_with a_reuid (new_uids us g) os)).
Proof.
  intros chk b g us Hg R.
  assert (NE : forall {P} (f : Z -> P -> P) ps, length us = length ps -> nonempty (zip_with f us ps) = nonempty ps).
  { intros P f ps L. unfold zip_with. destruct us, ps; try discriminate; reflexivity. }
  assert (DI : forall d, unwrap_or (option_map (di_reuid us) (dn_info d)) di0 = di_reuid us (unwrap_or (dn_info d) di0) \/ dn_info d = None).
  { intros d. destruct (dn_info d); [now left|now right]. }
  split; intros os H L.
  - unfold s_decode_block in *. cbn [pb_reuid pb_strings pb_groups]. destruct (pb_strings b) as [raw|]; [|discriminate].
    cbn [unwrap obind] in *. rewrite Hg in *. cbn [map].
    unfold s_decode_group, granularity, lat_offset, lon_offset, date_granularity in *.
    cbn [pb_reuid pb_granularity pb_lat_offset pb_lon_offset pb_date_granularity pg_reuid pg_nodes pg_dense pg_ways pg_rels f_nodes f_ways f_rels] in *.
    cbv zeta in *. rewrite !andb_true_r in *. destruct (nonempty (pg_nodes g)); [discriminate|]. unfold has_largest, new_uids in *.
    destruct (pg_dense g) as [d|] eqn:Hd; cbn [is_some option_map unwrap_or andb] in *.
    + destruct (s_strings raw) as [st|]; [|discriminate]. cbn [obind] in *. unfold s_decode_dense in *. cbn [dn_reuid dn_id dn_info dn_keys_vals].
      pose proof (dense_loop_len _ _ _ _ _ H) as Ln. unfold sums in *. rewrite L, Ln in *.
      destruct (dn_info d) as [di|] eqn:Edi; cbn [option_map unwrap_or] in *.
      * exact (loop_reuid _ _ s_reuid us (fun i s o s1 u lu => s_step_reuid chk _ _ _ _ st d di i s o s1 us u lu) _ _ _ _ H ltac:(lia) R).
      * destruct (dn_id d) as [|x l]; [cbn in *; injection H as <-; reflexivity|]. exfalso. cbn [length dense_loop] in H.
        unfold s_dense_step, dense_meta in H. cbn [di0 di_changeset] in H. binds H. repeat match goal with E : obind _ _ = Ret _ |- _ => progress binds E end. match goal with E : at_ [] _ = Ret _ |- _ => discriminate E end.
    + destruct (pg_ways g) as [|w ws] eqn:Hw.
      * replace (zip_with pw_reuid us []) with (@nil pway) by (unfold zip_with; now destruct us). cbn [nonempty] in *.
        destruct (pg_rels g) as [|r rs] eqn:Hr.
        -- cbn [nonempty] in H. injection H as <-. destruct us; [reflexivity|discriminate].
        -- rewrite <- Hr in *. assert (N : nonempty (pg_rels g) = true) by now rewrite Hr. rewrite N in H.
           destruct (s_strings raw) as [st|]; [|discriminate]. cbn [obind] in *.
           assert (Lr : length us = length (pg_rels g)) by (rewrite L; symmetry; eapply Forall2_len, omapM_inv, H).
           rewrite NE, N by exact Lr. cbn [obind]. apply omapM_reuid; [|exact H|exact L|exact R]. intros u p o E X. now apply s_rel_reuid.
      * rewrite <- Hw in *. assert (N : nonempty (pg_ways g) = true) by now rewrite Hw. rewrite N in H.
        destruct (s_strings raw) as [st|]; [|discriminate]. cbn [obind] in *.
        assert (Lr : length us = length (pg_ways g)) by (rewrite L; symmetry; eapply Forall2_len, omapM_inv, H).
        rewrite NE, N by exact Lr. cbn [obind]. apply omapM_reuid; [|exact H|exact L|exact R]. intros u p o E X. now apply s_way_reuid.
  - unfold a_decode_block in *. cbn [pb_reuid pb_strings pb_groups]. cbv zeta in *. rewrite Hg in *. cbn [map omapM] in *.
    destruct (a_decode_group chk _ _ _ _ _ g) as [os'|] eqn:E; [|discriminate]. cbn [obind concat] in H. rewrite app_nil_r in H.
    injection H as <-. rename os' into os, E into H.
    assert (G : a_decode_group chk (granularity (pb_reuid us b)) (lat_offset (pb_reuid us b)) (lon_offset (pb_reuid us b))
       (date_granularity (pb_reuid us b)) (a_strings (unwrap_or (pb_strings b) [])) (pg_reuid us g) =
       if has_largest us g then Panic else Ret (zip_with a_reuid (new_uids us g) os)).
    { unfold a_decode_group, granularity, lat_offset, lon_offset, date_granularity in *.
      cbn [pb_reuid pb_granularity pb_lat_offset pb_lon_offset pb_date_granularity pg_reuid pg_nodes pg_dense pg_ways pg_rels] in *.
      cbv zeta in *. destruct (nonempty (pg_nodes g)); [discriminate|]. unfold has_largest, new_uids in *.
      destruct (pg_dense g) as [d|] eqn:Hd; cbn [is_some option_map unwrap_or andb] in *.
      + unfold a_decode_dense in *. cbn [dn_reuid dn_id dn_info dn_keys_vals].
        pose proof (dense_loop_len _ _ _ _ _ H) as Ln. unfold sums in *. rewrite L, Ln in *.
        destruct (dn_info d) as [di|] eqn:Edi; cbn [option_map unwrap_or] in *.
        * exact (loop_reuid _ _ a_reuid us (fun i s o s1 u lu => a_step_reuid chk _ _ _ _ _ d di i s o s1 us u lu) _ _ _ _ H ltac:(lia) R).
        * destruct (dn_id d) as [|x l]; [cbn in *; injection H as <-; reflexivity|]. exfalso. cbn [length dense_loop] in H.
          unfold a_dense_step, dense_meta in H. cbn [di0 di_changeset] in H. binds H. repeat match goal with E : obind _ _ = Ret _ |- _ => progress binds E end. match goal with E : at_ [] _ = Ret _ |- _ => discriminate E end.
      + destruct (pg_ways g) as [|w ws] eqn:Hw.
        * replace (zip_with pw_reuid us []) with (@nil pway) by (unfold zip_with; now destruct us). cbn [nonempty] in *.
          destruct (pg_rels g) as [|r rs] eqn:Hr; [discriminate|].
          rewrite <- Hr in *. assert (N : nonempty (pg_rels g) = true) by now rewrite Hr. rewrite N in H.
          assert (Lr : length us = length (pg_rels g)) by (rewrite L; symmetry; eapply Forall2_len, omapM_inv, H).
          rewrite NE, N by exact Lr. apply omapM_reuid; [|exact H|exact L|exact R]. intros u p o E X. now apply a_rel_reuid.
        * rewrite <- Hw in *. assert (N : nonempty (pg_ways g) = true) by now rewrite Hw. rewrite N in H.
          assert (Lr : length us = length (pg_ways g)) by (rewrite L; symmetry; eapply Forall2_len, omapM_inv, H).
          rewrite NE, N by exact Lr. apply omapM_reuid; [|exact H|exact L|exact R]. intros u p o E X. now apply a_way_reuid. }
    cbn [pb_reuid] in G |- *. rewrite G. destruct (has_largest us g); [reflexivity|]. cbn [obind concat]. now rewrite app_nil_r.
Qed.
Print Assumptions C73_exact.
(** Both nodes of a block; the second gets the largest id, or the one before it. *)
Example C73_exact_ex : exists g os, pb_groups ex_dense = [g] /\ s_decode_block (plain true) (OF true true true) ex_dense = Ret os /\
  length os = 2%nat /\ new_uids [5; 2^31 - 6] g = [5; 2^31 - 1] /\ has_largest [5; 2^31 - 6] g = true /\
  has_largest [5; 2^31 - 7] g = false.
Proof.
  eexists _, _. split; [reflexivity|]. split; [vm_compute; reflexivity|]. repeat split.
Qed.
Example C62_exact_ex : exists r, s_decode_block (plain true) (OF true true true) (rel_block (Some true) [1; 1; 1] [0] [0; 0]) = Ret [SRel r] /\
  member_count (SRel r) = 1%nat.
Proof. eexists. split; [vm_compute; reflexivity|reflexivity]. Qed.
