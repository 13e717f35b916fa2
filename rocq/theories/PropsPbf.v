(** Properties C40-C43 and C61: the PBF readers over whole files. *)
From Coq Require Import String ZArith List Bool Lia.
From Coq Require Import ZifyBool ZifyNat.
From Verif Require Import Base Utf8 Timestamp Obj ObjFacts SpecObj SpecIter PbWire PbMsg PbMsgFacts PbfRead SpecPbf SpecPbfRead
  PbfFacts PbfExact PbfEncode PbRange PbfSound PbfFrame PropsPbfFile PropsPbfBlock PropsPbfEdge.
Import ListNotations.
Open Scope Z_scope.

(** ** Runs of the readers *)

Lemma blobs_total rt : forall n src, (length src < n)%nat -> exists bs r, Runs (next_blob rt) src bs r.
Proof.
  induction n as [|n IH]; intros src H; [lia|].
  destruct (next_blob rt src) as [[[b|] r]|] eqn:E.
  - pose proof (next_blob_rest _ _ _ _ E). destruct (IH r) as (bs & r' & R); [lia|].
    exists (b :: bs), r'. eapply Runs_step; eassumption.
  - exists [], (Ret r). now apply Runs_end.
  - exists [], Panic. now apply Runs_panic.
Qed.

Lemma decode_split {A B} (f : A -> outcome B) bs :
  (exists ls, Forall2 (fun b l => f b = Ret l) bs ls) \/
  (exists bs1 b bs2 ls, bs = bs1 ++ b :: bs2 /\ f b = Panic /\ Forall2 (fun b l => f b = Ret l) bs1 ls).
Proof.
  induction bs as [|b bs IH]; [left; exists []; constructor|]. destruct (f b) as [l|] eqn:E.
  - destruct IH as [(ls & IH)|(bs1 & b' & bs2 & ls & -> & H1 & H2)].
    + left. exists (l :: ls). now constructor.
    + right. exists (b :: bs1), b', bs2, (l :: ls). split; [reflexivity|]. split; [exact H1|]. now constructor.
  - right. exists [], b, bs, []. split; [reflexivity|]. split; [exact E|]. constructor.
Qed.

(** Every run of a buffered reader comes from the blobs of the file. *)
Lemma buffered_inv {A} rt (decode : blob -> outcome (list A)) src buf l r :
  Runs (buf_next rt decode) (src, buf) l r ->
  exists bs rb, Runs (next_blob rt) src bs rb /\
   ((exists ls, Forall2 (fun b l => decode b = Ret l) bs ls /\ l = buf ++ concat ls /\
       r = match rb with Ret s => Ret (s, []) | Panic => Panic end) \/
    (exists bs1 b bs2 ls, bs = bs1 ++ b :: bs2 /\ decode b = Panic /\ Forall2 (fun b l => decode b = Ret l) bs1 ls /\
       l = buf ++ concat ls /\ r = Panic)).
Proof.
  intros H. destruct (blobs_total rt (S (length src)) src) as (bs & rb & R); [lia|]. exists bs, rb. split; [exact R|].
  destruct (decode_split decode bs) as [(ls & F)|(bs1 & b & bs2 & ls & -> & Hp & F)].
  - left. exists ls. pose proof (runs_buffered rt decode _ _ _ R ls buf F) as R'.
    destruct (Runs_det _ _ _ _ H _ _ R') as [-> ->]. split; [exact F|split; reflexivity].
  - right. exists bs1, b, bs2, ls. pose proof (runs_buffered_panic rt decode _ _ _ _ _ R Hp ls buf F) as R'.
    destruct (Runs_det _ _ _ _ H _ _ R') as [-> ->]. repeat (split; [first [reflexivity|assumption]|]). reflexivity.
Qed.
Lemma buffered_total {A} rt (decode : blob -> outcome (list A)) src buf : exists l r, Runs (buf_next rt decode) (src, buf) l r.
Proof.
  destruct (blobs_total rt (S (length src)) src) as (bs & rb & R); [lia|].
  destruct (decode_split decode bs) as [(ls & F)|(bs1 & b & bs2 & ls & -> & Hp & F)].
  - do 2 eexists. eapply runs_buffered; eassumption.
  - do 2 eexists. eapply runs_buffered_panic; eassumption.
Qed.

Lemma a_next_runs_inv rt chk infl src l r : Runs (a_next rt chk infl) (src, []) l r ->
  exists r', Runs (buf_next rt (a_blob rt chk infl)) (src, []) l r' /\
    r = match r' with Ret p => Ret (fst p, rev (snd p)) | Panic => Panic end.
Proof.
  intros H. destruct (buffered_total rt (a_blob rt chk infl) src []) as (l' & r' & R).
  pose proof (a_next_runs _ _ _ _ _ _ _ R) as R'. destruct (Runs_det _ _ _ _ H _ _ R') as [-> ->]. now exists r'.
Qed.

Lemma Forall2_concat {A B} (R : A -> B -> Prop) l l' : Forall2 (Forall2 R) l l' -> Forall2 R (concat l) (concat l').
Proof. induction 1; cbn [concat]; [constructor|]. now apply Forall2_app. Qed.
Lemma Forall2_trans2 {A B C} (P : A -> B -> Prop) (Q : A -> C -> Prop) (R : B -> C -> Prop) : (forall a b c, P a b -> Q a c -> R b c) ->
  forall l lb lc, Forall2 P l lb -> Forall2 Q l lc -> Forall2 R lb lc.
Proof.
  intros H l lb lc F. revert lc. induction F as [|a b l lb Ha _ IH]; intros lc G; inv G; constructor; [now apply (H a)|now apply IH].
Qed.

(** ** C40 *)

(** The objects of the kinds in [flt]. *)
Definition of_kind (flt : obj_filter) (o : sobj) : bool :=
  match o with SNode _ => f_nodes flt | SWay _ => f_ways flt | SRel _ => f_rels flt end.
(** nodes(), ways() and relations(): set the filter, then keep the objects of the kind
    ([filter_map] over [objects()]). *)
Definition kind_iter (rt : pbrt) (chk : build) (inflate : bytes -> option bytes) (flt : obj_filter) (s : s_reader)
    (l : list sobj) (r : outcome s_reader) : Prop :=
  exists os, Runs (s_next rt chk inflate) (s_set_filter flt s) os r /\ l = filter (of_kind flt) os.

(** The group holds at most one kind of object. *)
Definition one_kind (g : pgroup) : Prop :=
  (pg_dense g = None /\ pg_ways g = [] /\ pg_rels g = []) \/
  (pg_nodes g = [] /\ pg_ways g = [] /\ pg_rels g = []) \/
  (pg_nodes g = [] /\ pg_dense g = None /\ pg_rels g = []) \/
  (pg_nodes g = [] /\ pg_dense g = None /\ pg_ways g = []).
Definition blob_groups (rt : pbrt) (inflate : bytes -> option bytes) (P : pgroup -> Prop) (b : blob) : Prop :=
  forall z data blk, bl_zlib b = Some z -> inflate z = Some data -> parse_block rt data = Some blk ->
    Forall P (pb_groups blk).
(** Of the whole file. *)
Definition file_groups (rt : pbrt) (inflate : bytes -> option bytes) (P : pgroup -> Prop) (src : bytes) : Prop :=
  forall bs r, Runs (next_blob rt) src bs r -> Forall (blob_groups rt inflate P) bs.

Lemma dense_nodes_only chk gran lato lono dg st d l : s_decode_dense chk gran lato lono dg st d = Ret l ->
  forall flt, filter (of_kind flt) l = if f_nodes flt then l else [].
Proof.
  unfold s_decode_dense. generalize (length (dn_id d)) 0%nat (ds0 (dn_keys_vals d)). intros n. revert l.
  induction n as [|n IH]; intros l i s H flt; cbn [dense_loop] in H; [injection H as <-; now destruct (f_nodes flt)|].
  destruct (s_dense_step _ _ _ _ _ _ _ _ i s) as [[o s']|] eqn:E; [|discriminate]. cbn [obind] in H.
  destruct (dense_loop _ n (S i) s') as [l'|] eqn:El; [|discriminate]. cbn [obind] in H. injection H as <-.
  unfold s_dense_step in E. binds E. injection E as <- <-. cbn [filter of_kind]. rewrite (IH _ _ _ El flt).
  now destruct (f_nodes flt).
Qed.
Lemma ways_only chk st ws l : omapM (s_decode_way chk st) ws = Ret l ->
  forall flt, filter (of_kind flt) l = if f_ways flt then l else [].
Proof.
  intros H flt. apply omapM_inv in H. induction H as [|w o ws l E _ IH]; [now destruct (f_ways flt)|].
  unfold s_decode_way in E. binds E. injection E as <-. cbn [filter of_kind]. rewrite IH. now destruct (f_ways flt).
Qed.
Lemma rels_only chk st rs l : omapM (s_decode_rel chk st) rs = Ret l ->
  forall flt, filter (of_kind flt) l = if f_rels flt then l else [].
Proof.
  intros H flt. apply omapM_inv in H. induction H as [|w o ws l E _ IH]; [now destruct (f_rels flt)|].
  unfold s_decode_rel in E. binds E. injection E as <-. cbn [filter of_kind]. rewrite IH. now destruct (f_rels flt).
Qed.

Lemma group_filter chk gran lato lono dg raw flt g l : one_kind g ->
  s_decode_group chk gran lato lono dg raw (OF true true true) g = Ret l ->
  s_decode_group chk gran lato lono dg raw flt g = Ret (filter (of_kind flt) l).
Proof.
  intros K H. unfold s_decode_group in *. cbv zeta in *. cbn [f_nodes f_ways f_rels] in H. rewrite !andb_true_r in H.
  destruct (nonempty (pg_nodes g)); [discriminate|]. cbn [andb].
  destruct (pg_dense g) as [d|] eqn:Ed; cbn [is_some andb unwrap_or] in *.
  - destruct K as [(K & _)|[(_ & Kw & Kr)|[(_ & K & _)|(_ & K & _)]]]; try congruence. rewrite Kw, Kr. cbn [nonempty andb].
    destruct (s_strings raw) as [st|]; [|discriminate]. cbn [obind] in *. rewrite (dense_nodes_only _ _ _ _ _ _ _ _ H flt).
    now destruct (f_nodes flt).
  - destruct (pg_ways g) as [|w ws] eqn:Ew; cbn [nonempty andb] in *.
    + destruct (pg_rels g) as [|r rs] eqn:Er; cbn [nonempty andb] in *; [now injection H as <-|].
      destruct (s_strings raw) as [st|]; [|discriminate]. cbn [obind] in *. rewrite (rels_only _ _ _ _ H flt).
      now destruct (f_rels flt).
    + assert (pg_rels g = []) as ->.
      { destruct K as [(_ & K & _)|[(_ & K & _)|[(_ & _ & K)|(_ & _ & K)]]]; try congruence. }
      cbn [nonempty andb]. destruct (s_strings raw) as [st|]; [|discriminate]. cbn [obind] in *. rewrite (ways_only _ _ _ _ H flt).
      now destruct (f_ways flt).
Qed.

Lemma blob_filter rt chk infl flt b l : blob_groups rt infl one_kind b ->
  s_blob rt chk infl (OF true true true) b = Ret l -> s_blob rt chk infl flt b = Ret (filter (of_kind flt) l).
Proof.
  intros K H. unfold s_blob, s_blob_data in *.
  destruct (bl_raw b) as [[|x raw]|]; [cbn [obind] in *; now injection H as <-|discriminate|].
  destruct (bl_zlib b) as [z|] eqn:Ez; [|cbn [obind] in *; now injection H as <-].
  destruct (infl z) as [data|] eqn:Ei; [|discriminate]. cbn [unwrap obind] in *. destruct data as [|x data]; [now injection H as <-|].
  destruct (parse_block rt (x :: data)) as [blk|] eqn:Ep; [|discriminate]. cbn [unwrap obind] in *.
  specialize (K z (x :: data) blk Ez Ei Ep). unfold s_decode_block in *. destruct (pb_strings blk) as [raw|]; [|discriminate].
  cbn [unwrap obind] in *. destruct (pb_groups blk) as [|g [|]]; try discriminate. inv K. now apply group_filter.
Qed.

Lemma filter_concat {A} (p : A -> bool) ls : filter p (concat ls) = concat (map (filter p) ls).
Proof. induction ls as [|l ls IH]; [reflexivity|]. cbn [concat map]. now rewrite filter_app, IH. Qed.
Lemma filter_idem {A} (p : A -> bool) l : filter p (filter p l) = filter p l.
Proof. induction l as [|x l IH]; [reflexivity|]. cbn [filter]. destruct (p x) eqn:E; [cbn [filter]; now rewrite E, IH|exact IH]. Qed.

Lemma blobs_filter rt chk infl flt bs ls : Forall (blob_groups rt infl one_kind) bs ->
  Forall2 (fun b l => s_blob rt chk infl (OF true true true) b = Ret l) bs ls ->
  Forall2 (fun b l => s_blob rt chk infl flt b = Ret l) bs (map (filter (of_kind flt)) ls).
Proof.
  intros K F. apply Forall2_map_r. eapply Forall2_with; [|exact K|exact F]. intros b l Hb H. now apply blob_filter.
Qed.

(** For a reader in any state of its buffer.  If reading everything ends with a panic,
    then what the kind iterator yields begins with what filtering gives (it may get
    further, since it does not decode other kinds). *)
Theorem C40_kind_filters : forall rt chk inflate src buf flt os r,
  file_groups rt inflate one_kind src ->
  Runs (s_next rt chk inflate) (SReader src buf (OF true true true)) os r ->
  match r with
  | Ret s => kind_iter rt chk inflate flt (SReader src buf (OF true true true)) (filter (of_kind flt) os)
               (Ret (s_set_filter flt s))
  | Panic => exists more r', kind_iter rt chk inflate flt (SReader src buf (OF true true true)) (filter (of_kind flt) os ++ more) r'
  end.
Proof.
  intros rt chk infl src buf flt os r K H. apply s_next_runs_inv in H as (r' & H & ->).
  cbn [sr_filter sr_src sr_buf] in *. apply buffered_inv in H as (bs & rb & R & [(ls & F & -> & ->)|(bs1 & b & bs2 & ls & -> & Hp & F & -> & ->)]).
  - pose proof (blobs_filter rt chk infl flt bs ls (K _ _ R) F) as F'.
    pose proof (runs_buffered rt _ _ _ _ R _ buf F') as R'. apply s_next_runs in R'.
    destruct rb as [rb|]; cbn [s_set_filter sr_src sr_buf fst snd] in *.
    + exists (buf ++ concat (map (filter (of_kind flt)) ls)). split; [exact R'|].
      rewrite !filter_app, <- filter_concat, filter_idem. reflexivity.
    + exists [], Panic. rewrite app_nil_r. exists (buf ++ concat (map (filter (of_kind flt)) ls)). split; [exact R'|].
      rewrite !filter_app, <- filter_concat, filter_idem. reflexivity.
  - pose proof (K _ _ R) as K'. apply Forall_app in K' as (K1 & _).
    pose proof (blobs_filter rt chk infl flt bs1 ls K1 F) as F'.
    destruct (decode_split (s_blob rt chk infl flt) (b :: bs2)) as [(ls2 & F2)|(bs3 & b3 & bs4 & ls3 & E & Hp3 & F3)].
    + pose proof (Forall2_app F' F2) as F4. pose proof (runs_buffered rt _ _ _ _ R _ buf F4) as R'. apply s_next_runs in R'.
      exists (filter (of_kind flt) (concat ls2)). eexists. exists (buf ++ concat (map (filter (of_kind flt)) ls ++ ls2)). split; [exact R'|].
      rewrite concat_app, !filter_app, <- filter_concat, filter_idem. now rewrite app_assoc.
    + rewrite E in R. rewrite app_assoc in R. pose proof (Forall2_app F' F3) as F4.
      pose proof (runs_buffered_panic rt _ _ _ _ _ _ R Hp3 _ buf F4) as R'. apply s_next_runs in R'.
      exists (filter (of_kind flt) (concat ls3)). eexists. exists (buf ++ concat (map (filter (of_kind flt)) ls ++ ls3)). split; [exact R'|].
      rewrite concat_app, !filter_app, <- filter_concat, filter_idem. now rewrite app_assoc.
Qed.
Print Assumptions C40_kind_filters.

(** nodes(), ways() and relations() themselves: what they yield is, in order, the nodes
    (ways, relations) among what objects() would yield. *)
Definition typed_iter {A} (into : sobj -> option A) (flt : obj_filter) (rt : pbrt) (chk : build) (inflate : bytes -> option bytes)
    (s : s_reader) (l : list A) (r : outcome s_reader) : Prop :=
  exists os, Runs (s_next rt chk inflate) (s_set_filter flt s) os r /\ l = filter_map into os.
Definition the_nodes (l : list sobj) : list snode := flat_map (fun o => match o with SNode n => [n] | _ => [] end) l.
Definition the_ways (l : list sobj) : list sway := flat_map (fun o => match o with SWay w => [w] | _ => [] end) l.
Definition the_rels (l : list sobj) : list srel := flat_map (fun o => match o with SRel r => [r] | _ => [] end) l.

Lemma typed_the os : filter_map into_node os = the_nodes os /\ filter_map into_way os = the_ways os /\ filter_map into_relation os = the_rels os.
Proof.
  induction os as [|o os (I1 & I2 & I3)]; [repeat split|]. unfold the_nodes, the_ways, the_rels in *. cbn [filter_map flat_map].
  rewrite I1, I2, I3. destruct o; repeat split.
Qed.
Lemma the_kind os :
  the_nodes (filter (of_kind only_nodes) os) = the_nodes os /\ the_ways (filter (of_kind only_ways) os) = the_ways os /\
  the_rels (filter (of_kind only_rels) os) = the_rels os.
Proof.
  induction os as [|o os (I1 & I2 & I3)]; [repeat split|]. unfold the_nodes, the_ways, the_rels in *.
  cbn [filter flat_map]. rewrite <- I1, <- I2, <- I3. destruct o; repeat split.
Qed.
Lemma the_app a b : the_nodes (a ++ b) = the_nodes a ++ the_nodes b /\ the_ways (a ++ b) = the_ways a ++ the_ways b /\
  the_rels (a ++ b) = the_rels a ++ the_rels b.
Proof. unfold the_nodes, the_ways, the_rels. now rewrite !flat_map_app. Qed.

Theorem C40_nodes_ways_relations : forall rt chk inflate src buf os r,
  file_groups rt inflate one_kind src ->
  Runs (s_next rt chk inflate) (SReader src buf (OF true true true)) os r ->
  let s0 := SReader src buf (OF true true true) in
  match r with
  | Ret s =>
      typed_iter into_node only_nodes rt chk inflate s0 (the_nodes os) (Ret (s_set_filter only_nodes s)) /\
      typed_iter into_way only_ways rt chk inflate s0 (the_ways os) (Ret (s_set_filter only_ways s)) /\
      typed_iter into_relation only_rels rt chk inflate s0 (the_rels os) (Ret (s_set_filter only_rels s))
  | Panic =>
      (exists more r', typed_iter into_node only_nodes rt chk inflate s0 (the_nodes os ++ more) r') /\
      (exists more r', typed_iter into_way only_ways rt chk inflate s0 (the_ways os ++ more) r') /\
      (exists more r', typed_iter into_relation only_rels rt chk inflate s0 (the_rels os ++ more) r')
  end.
Proof.
  intros rt chk infl src buf os r K H s0.
  assert (T : forall flt, _) by (intros flt; exact (C40_kind_filters rt chk infl src buf flt os r K H)).
  pose proof (T only_nodes) as T1. pose proof (T only_ways) as T2. pose proof (T only_rels) as T3. fold s0 in T1, T2, T3.
  destruct r as [s|].
  - destruct T1 as (o1 & R1 & E1). destruct T2 as (o2 & R2 & E2). destruct T3 as (o3 & R3 & E3). split; [|split].
    + exists o1. split; [exact R1|]. rewrite (proj1 (typed_the o1)), <- (proj1 (the_kind o1)), <- E1. symmetry. apply the_kind.
    + exists o2. split; [exact R2|]. rewrite (proj1 (proj2 (typed_the o2))), <- (proj1 (proj2 (the_kind o2))), <- E2. symmetry. apply the_kind.
    + exists o3. split; [exact R3|]. rewrite (proj2 (proj2 (typed_the o3))), <- (proj2 (proj2 (the_kind o3))), <- E3. symmetry. apply the_kind.
  - destruct T1 as (m1 & r1 & o1 & R1 & E1). destruct T2 as (m2 & r2 & o2 & R2 & E2). destruct T3 as (m3 & r3 & o3 & R3 & E3). split; [|split].
    + exists (the_nodes m1), r1, o1. split; [exact R1|].
      rewrite (proj1 (typed_the o1)), <- (proj1 (the_kind o1)), <- E1, (proj1 (the_app _ _)). f_equal. symmetry. apply the_kind.
    + exists (the_ways m2), r2, o2. split; [exact R2|].
      rewrite (proj1 (proj2 (typed_the o2))), <- (proj1 (proj2 (the_kind o2))), <- E2, (proj1 (proj2 (the_app _ _))). f_equal. symmetry. apply the_kind.
    + exists (the_rels m3), r3, o3. split; [exact R3|].
      rewrite (proj2 (proj2 (typed_the o3))), <- (proj2 (proj2 (the_kind o3))), <- E3, (proj2 (proj2 (the_app _ _))). f_equal. symmetry. apply the_kind.
Qed.
Print Assumptions C40_nodes_ways_relations.

(** ** C61 *)

Lemma filtered_kind rt chk infl src flt os r :
  Runs (s_next rt chk infl) (s_set_filter flt (s_new src)) os r -> Forall (fun o => of_kind flt o = true) os.
Proof.
  intros H.
  apply s_next_runs_inv in H as (r' & H & _). cbn [s_set_filter s_new sr_filter sr_src sr_buf] in *.
  apply buffered_inv in H as (bs & rb & R & D).
  assert (B : forall b l, s_blob rt chk infl flt b = Ret l -> Forall (fun o => of_kind flt o = true) l).
  { clear. intros b l H. unfold s_blob in H. destruct (s_blob_data infl b) as [[|x data]|]; [injection H as <-; constructor| |discriminate].
    cbn [obind] in H. destruct (parse_block rt (x :: data)) as [blk|]; [|discriminate]. cbn [unwrap obind] in H.
    unfold s_decode_block in H. destruct (pb_strings blk) as [raw|]; [|discriminate]. cbn [unwrap obind] in H.
    destruct (pb_groups blk) as [|g [|]]; try discriminate. unfold s_decode_group in H. cbv zeta in H.
    assert (A : forall b : bool, (if b then l else []) = filter (of_kind flt) l -> b = true -> Forall (fun o => of_kind flt o = true) l).
    { intros b0 E ->. rewrite E. apply Forall_forall. intros o Ho. apply filter_In in Ho. apply Ho. }
    destruct (nonempty (pg_nodes g) && f_nodes flt); [discriminate|].
    destruct (is_some (pg_dense g) && f_nodes flt) eqn:E1.
    { destruct (s_strings raw) as [st|]; [|discriminate]. cbn [obind] in H. apply andb_true_iff in E1 as (_ & E1).
      eapply A; [|exact E1]. symmetry. eapply dense_nodes_only. exact H. }
    destruct (nonempty (pg_ways g) && f_ways flt) eqn:E2.
    { destruct (s_strings raw) as [st|]; [|discriminate]. cbn [obind] in H. apply andb_true_iff in E2 as (_ & E2).
      eapply A; [|exact E2]. symmetry. eapply ways_only. exact H. }
    destruct (nonempty (pg_rels g) && f_rels flt) eqn:E3.
    { destruct (s_strings raw) as [st|]; [|discriminate]. cbn [obind] in H. apply andb_true_iff in E3 as (_ & E3).
      eapply A; [|exact E3]. symmetry. eapply rels_only. exact H. }
    injection H as <-. constructor. }
  assert (C : forall bs ls, Forall2 (fun b l => s_blob rt chk infl flt b = Ret l) bs ls -> Forall (fun o => of_kind flt o = true) (concat ls)).
  { intros bs0 ls F. induction F as [|b l bs0 ls E _ IH]; [constructor|]. cbn [concat]. apply Forall_app. split; [eapply B; exact E|exact IH]. }
  destruct D as [(ls & F & -> & _)|(bs1 & b & bs2 & ls & -> & _ & F & -> & _)]; eapply C; exact F.
Qed.

(** After nodes(), ways() or relations() the reader never yields the other kinds again:
    whatever object of another kind is in the file, and would have been yielded, is
    missing from objects(). *)
Theorem C61_kind_iterator_refuted : forall rt chk inflate src flt os r os' r' o,
  Runs (s_next rt chk inflate) (s_new src) os r -> In o os -> of_kind flt o = false ->
  Runs (s_next rt chk inflate) (s_set_filter flt (s_new src)) os' r' -> ~ In o os'.
Proof.
  intros rt chk infl src flt os r os' r' o _ _ Hk H Hin. apply filtered_kind in H.
  rewrite Forall_forall in H. specialize (H o Hin). congruence.
Qed.
Print Assumptions C61_kind_iterator_refuted.

(** ** C43 *)

(** A file item and the objects it carries: a blob compressed with zlib whose data is a
    block meaning those objects, within what the readers support (SpecPbf); or
    something else, and none. *)
Definition carries (rt : pbrt) (inflate : bytes -> option bytes) (i : item) (l : list sobj) : Prop :=
  match i with
  | Other _ _ _ => l = []
  | Data _ b => exists z data blk n, bl_raw b = None /\ bl_zlib b = Some z /\ bl_raw_size b = Some n /\ 0 <= n /\
      inflate z = Some data /\ parse_block rt data = Some blk /\ block_is blk l /\ block_supported blk l
  end.

Lemma parse_nonempty rt blk : parse_block rt [] <> Some blk.
Proof. intros H. discriminate H. Qed.

Lemma carries_s rt chk infl ix b l : carries rt infl (Data ix b) l -> s_blob rt chk infl (OF true true true) b = Ret l.
Proof.
  intros (z & data & blk & n & H1 & H2 & _ & _ & H3 & H4 & H5 & H6). unfold s_blob, s_blob_data. rewrite H1, H2, H3. cbn [unwrap obind].
  destruct data as [|x data]; [now apply parse_nonempty in H4|]. rewrite H4. cbn [unwrap obind]. now apply s_block_exact.
Qed.
Lemma carries_a rt chk infl ix b l : carries rt infl (Data ix b) l -> a_blob rt chk infl b = Ret (map arc_of l).
Proof.
  intros (z & data & blk & n & H1 & H2 & H0 & Hn & H3 & H4 & H5 & H6). unfold a_blob, a_blob_data. rewrite H1, H2, H0. cbn [unwrap obind].
  destruct (n <? 0) eqn:En; [lia|]. rewrite H3. cbn [unwrap obind]. rewrite H4. cbn [unwrap obind].
  pose proof (s_block_exact chk _ _ H5 H6) as E. destruct H6 as (_ & g & Hg & Hs). destruct H5 as (raw & ls & _ & _ & F & ->).
  rewrite Hg in F. inv F. match goal with H : Forall2 _ [] _ |- _ => inv H end. cbn [concat] in *. rewrite app_nil_r in *.
  apply (arc_block _ _ _ _ E Hg). unfold group_supported in Hs. unfold arc_ready.
  match goal with H : group_is _ _ _ _ |- _ => inv H end; cbn [pg_dense pg_ways pg_rels is_some orb] in *; [reflexivity| |];
    destruct Hs as (S1 & S2 & _).
  - destruct ps as [|p ps]; [contradiction|]. cbn [nonempty negb andb]. rewrite orb_false_r.
    apply forallb_forall. intros q Hq. rewrite Forall_forall in S1. destruct (S1 q Hq) as (i & Ei & Ev). unfold flagged. rewrite Ei. cbn [unwrap_or].
    destruct (i_visible i); [reflexivity|contradiction].
  - destruct ps as [|p ps]; [contradiction|]. cbn [nonempty negb andb orb].
    apply forallb_forall. intros q Hq. rewrite Forall_forall in S2. destruct (S2 q Hq) as (i & Ei & Ev). unfold flagged. rewrite Ei. cbn [unwrap_or].
    assert (K : rest_known chk q = true).
    { match goal with F : Forall2 (rel_is _ _) _ _ |- _ => destruct (In_nth_error _ _ Hq) as (k & Hk); destruct (Forall2_nth _ _ _ _ _ F Hk) as (r & _ & _ & _ & _ & _ & T & _) end.
      unfold rest_known. rewrite rest_type_known; [reflexivity|]. rewrite T. apply Forall_map_iff, Forall_forall. intros m _. destruct (mem_type m); cbn; lia. }
    rewrite K. destruct (i_visible i); [reflexivity|contradiction].
Qed.

Lemma carried_blobs {A} rt infl (decode : blob -> outcome (list A)) (f : list sobj -> list A) is ls : f [] = [] ->
  (forall a b, f (a ++ b) = f a ++ f b) ->
  (forall ix b l, carries rt infl (Data ix b) l -> decode b = Ret (f l)) ->
  Forall2 (carries rt infl) is ls ->
  exists ls', Forall2 (fun b l => decode b = Ret l) (filter_map item_blob is) ls' /\ concat ls' = f (concat ls).
Proof.
  intros f0 fapp H F. induction F as [|i l is ls C _ (ls' & IH & IE)]; [exists []; split; [apply Forall2_nil|exact (eq_sym f0)]|].
  destruct i as [ix b|t ix d]; cbn [filter_map item_blob concat].
  - exists (f l :: ls'). split; [constructor; [eapply H; exact C|exact IH]|]. cbn [concat]. now rewrite IE, fapp.
  - cbn [carries] in C. subst l. exists ls'. now split.
Qed.

(** Both readers return exactly the objects of the file, in order, and then the end of
    the file. *)
Theorem C43_supported_files_partial : forall rt chk inflate is ls, Forall item_ok is -> Forall2 (carries rt inflate) is ls ->
  Runs (s_next rt chk inflate) (s_new (file_bytes (map item_frame is))) (concat ls) (Ret (s_new [])) /\
  Runs (a_next rt chk inflate) (file_bytes (map item_frame is), []) (map arc_of (concat ls)) (Ret ([], [])).
Proof.
  intros rt chk infl is ls Hi Hc. pose proof (C33_data_blobs_in_order rt is Hi) as R. split.
  - destruct (carried_blobs rt infl (s_blob rt chk infl (OF true true true)) (fun l => l) is ls eq_refl ltac:(reflexivity)
      (fun ix b l => carries_s rt chk infl ix b l) Hc) as (ls' & F & <-).
    pose proof (runs_buffered rt _ _ _ _ R ls' [] F) as R'. apply s_next_runs in R'. exact R'.
  - destruct (carried_blobs rt infl (a_blob rt chk infl) (map arc_of) is ls eq_refl (map_app _)
      (fun ix b l => carries_a rt chk infl ix b l) Hc) as (ls' & F & <-).
    pose proof (runs_buffered rt _ _ _ _ R ls' [] F) as R'. apply a_next_runs in R'. exact R'.
Qed.
Print Assumptions C43_supported_files_partial.

(** A writer: each list of objects of one kind becomes a block (PbfEncode: string table,
    deltas, one group), serialised, compressed and framed. *)
Definition write_blob (deflate : bytes -> bytes) (k : kind_list) : blob :=
  let data := ser_block (enc_block k) in
  Blob None (Some (Z.of_nat (length data))) (Some (deflate data)) None None.
Definition write_item (deflate : bytes -> bytes) (k : kind_list) : item := Data None (write_blob deflate k).
Definition write_file (deflate : bytes -> bytes) (header : bytes) (ks : list kind_list) : bytes :=
  file_bytes (map item_frame (Other (lit "OSMHeader") None header :: map (write_item deflate) ks)).

(** The sizes fit their fields. *)
Definition sizes_ok (deflate : bytes -> bytes) (k : kind_list) : Prop :=
  Z.of_nat (length (ser_block (enc_block k))) < 2^31 /\ frame_ok (item_frame (write_item deflate k)).

Theorem C43_write_read : forall rt chk deflate inflate header ks,
  (forall x, inflate (deflate x) = Some x) -> frame_ok (Frame (lit "OSMHeader") None header) ->
  Forall kind_ok ks -> Forall (sizes_ok deflate) ks ->
  Runs (s_next rt chk inflate) (s_new (write_file deflate header ks)) (flat_map objs_of ks) (Ret (s_new [])) /\
  Runs (a_next rt chk inflate) (write_file deflate header ks, []) (map arc_of (flat_map objs_of ks)) (Ret ([], [])).
Proof.
  intros rt chk deflate inflate header ks Hz Hh Hk Hs.
  assert (I : Forall item_ok (Other (lit "OSMHeader") None header :: map (write_item deflate) ks)).
  { constructor; [split; [exact Hh|discriminate]|]. clear -Hs. induction Hs as [|k ks (S1 & S2) _ IH]; constructor; [|exact IH].
    split; [exact S2|]. change (in_i32 (Z.of_nat (length (ser_block (enc_block k))))). unfold in_i32. clear -S1. lia. }
  assert (C : Forall2 (carries rt inflate) (Other (lit "OSMHeader") None header :: map (write_item deflate) ks) ([] :: map objs_of ks)).
  { constructor; [reflexivity|]. clear -Hz Hk Hs. induction Hk as [|k ks K _ IH]; [constructor|]. inv Hs. constructor; [|now apply IH].
    match goal with H : sizes_ok _ k |- _ => destruct H as (S1 & _) end.
    exists (deflate (ser_block (enc_block k))), (ser_block (enc_block k)), (enc_block k), (Z.of_nat (length (ser_block (enc_block k)))).
    split; [reflexivity|]. split; [reflexivity|]. split; [reflexivity|]. split; [clear; lia|]. split; [apply Hz|]. split.
    - apply parse_block_ok; [now apply enc_block_ok| |apply enc_block_init; assumption]. unfold fits. fold (ser_block (enc_block k)). clear -S1. lia.
    - split; [now apply enc_block_is|now apply enc_block_supported]. }
  destruct (C43_supported_files_partial rt chk inflate _ _ I C) as (R1 & R2).
  cbn [concat] in *. rewrite flat_map_concat_map. now split.
Qed.
Print Assumptions C43_write_read.

(** A file with a node, a way and a relation; "compression" that changes nothing. *)
Definition ex_meta (i : Z) : meta := Meta i (Some 1) false (Some 9) (Some (EpochNumber 1500000000)) (Some 3) (Some [117]).
Definition ex_ks : list kind_list :=
  [ KNodes [SN (ex_meta 1) [([107], [118])] (Some (515000000, -1000000)); SN (ex_meta 2) [] (Some (5, 6))];
    KWays [SW (ex_meta 10) [([107], [252])] [1; 2; 1]];
    KRels [SR (ex_meta 20) [] [(TWay, 10, [114]); (TNode, 2, [])]] ].
Definition ex_id (x : bytes) : bytes := x.

Lemma scalar_lits (s : str) : forallb scalarb s = true -> valid_str s.
Proof. intros H. apply Forall_forall. intros x Hx. rewrite forallb_forall in H. apply scalarb_iff. now apply H. Qed.

Lemma ex_meta_ok i : in_i64 i -> enc_meta_ok (ex_meta i).
Proof.
  intros H. split.
  - split; [exact H| | | |]; eexists; (split; [reflexivity|]).
    + lia.
    + eexists. split; [reflexivity|]. unfold in_i64. lia.
    + unfold in_u32. lia.
    + lia.
  - eexists. split; [reflexivity|]. now apply scalar_lits.
Qed.

Example C43_example : Forall kind_ok ex_ks /\ Forall (sizes_ok ex_id) ex_ks /\ frame_ok (Frame (lit "OSMHeader") None [1; 2]) /\
  length (flat_map objs_of ex_ks) = 4%nat /\ (forall x, Some (ex_id x) = Some x).
Proof.
  assert (M : forall i, -100 <= i <= 100 -> enc_meta_ok (ex_meta i)) by (intros i Hi; apply ex_meta_ok; unfold in_i64; lia).
  assert (N : forall i t la lo, -100 <= i <= 100 -> in_i32 la -> in_i32 lo -> tags_ok t -> node_ok (SN (ex_meta i) t (Some (la, lo)))).
  { intros i t la lo Hi H1 H2 Ht. split; [now apply M|]. split; [unfold id62; cbn; lia|].
    split; [eexists; split; [reflexivity|]; eexists; split; [reflexivity|lia]|].
    split; [eexists; split; [reflexivity|lia]|]. split; [|exact Ht]. eexists. split; [reflexivity|]. now split. }
  assert (T : forall k v, forallb scalarb (k ++ v) = true -> tags_ok [(k, v)]).
  { intros k v H. rewrite forallb_app in H. apply andb_true_iff in H as (H1 & H2). constructor; [|constructor]. split; now apply scalar_lits. }
  split; [|split; [|split; [|split; [reflexivity|reflexivity]]]].
  - constructor; [|constructor; [|constructor; [|constructor]]].
    + split; [vm_compute; reflexivity|]. constructor; [|constructor; [|constructor]]; apply N; try (unfold in_i32; lia); [|constructor].
      now apply T.
    + split; [vm_compute; reflexivity|]. split; [discriminate|]. constructor; [|constructor]. split; [now apply M|]. split; [now apply T|].
      repeat constructor; unfold id62; lia.
    + split; [vm_compute; reflexivity|]. split; [discriminate|]. constructor; [|constructor]. split; [now apply M|]. split; [constructor|].
      split; [repeat constructor; unfold id62; cbn; lia|]. constructor; [now apply scalar_lits|]. constructor; [constructor|constructor].
  - assert (V : valid_str (lit "OSMData")) by (apply scalar_lits; vm_compute; reflexivity).
    constructor; [|constructor; [|constructor; [|constructor]]]; (split; [vm_compute; reflexivity|]; split; [exact V|split; vm_compute; reflexivity]).
  - split; [apply scalar_lits; vm_compute; reflexivity|split; vm_compute; reflexivity].
Qed.

Definition ex_file : bytes := write_file ex_id [1; 2] ex_ks.
Lemma ex_file_runs : Runs (s_next ex_rt (plain true) Some) (s_new ex_file) (flat_map objs_of ex_ks) (Ret (s_new [])).
Proof.
  destruct C43_example as (H1 & H2 & H3 & _ & H4). exact (proj1 (C43_write_read ex_rt (plain true) ex_id Some [1; 2] ex_ks H4 H3 H1 H2)).
Qed.

Lemma ex_file_items : exists is, Forall item_ok is /\ ex_file = file_bytes (map item_frame is) /\
  filter_map item_blob is = map (write_blob ex_id) ex_ks.
Proof.
  exists (Other (lit "OSMHeader") None [1; 2] :: map (write_item ex_id) ex_ks). split; [|split; [reflexivity|reflexivity]].
  destruct C43_example as (_ & H2 & H3 & _). constructor; [split; [exact H3|discriminate]|].
  inv H2. match goal with H : Forall _ (_ :: _) |- _ => inv H end. match goal with H : Forall _ (_ :: _) |- _ => inv H end.
  repeat match goal with H : sizes_ok _ _ |- _ => destruct H as (_ & H) end.
  constructor; [|constructor; [|constructor; [|constructor]]]; (split; [assumption|vm_compute; split; congruence]).
Qed.
Lemma ex_file_groups (P : pgroup -> Prop) : Forall (fun k => P (enc_group k)) ex_ks -> file_groups ex_rt Some P ex_file.
Proof.
  intros H bs r R. destruct ex_file_items as (is & Hi & E & Eb). rewrite E in R.
  destruct (Runs_det _ _ _ _ R _ _ (C33_data_blobs_in_order ex_rt is Hi)) as [-> _]. rewrite Eb.
  inv H. match goal with H : Forall _ (_ :: _) |- _ => inv H end. match goal with H : Forall _ (_ :: _) |- _ => inv H end.
  constructor; [|constructor; [|constructor; [|constructor]]]; intros z data blk Ez Ei Ep; injection Ez as <-; injection Ei as <-;
    vm_compute in Ep; injection Ep as <-; (constructor; [assumption|constructor]).
Qed.

Example C40_example : file_groups ex_rt Some one_kind ex_file /\
  exists os, Runs (s_next ex_rt (plain true) Some) (SReader ex_file [] (OF true true true)) os (Ret (s_new [])) /\
    length (filter (of_kind only_nodes) os) = 2%nat /\ length (filter (of_kind only_ways) os) = 1%nat /\
    length (the_nodes os) = 2%nat /\ length (the_ways os) = 1%nat /\ length (the_rels os) = 1%nat.
Proof.
  split.
  - apply ex_file_groups. constructor; [|constructor; [|constructor; [|constructor]]]; unfold one_kind; cbn; tauto.
  - eexists. split; [exact ex_file_runs|]. repeat split.
Qed.

Example C61_example : exists os o, Runs (s_next ex_rt (plain true) Some) (s_new ex_file) os (Ret (s_new [])) /\ In o os /\
  of_kind only_nodes o = false /\
  exists os' r', Runs (s_next ex_rt (plain true) Some) (s_set_filter only_nodes (s_new ex_file)) os' r' /\ length os' = 2%nat.
Proof.
  eexists _, (SWay (SW (ex_meta 10) [([107], [252])] [1; 2; 1])). split; [exact ex_file_runs|]. split; [cbn; tauto|]. split; [reflexivity|].
  pose proof (C40_kind_filters ex_rt (plain true) Some ex_file [] only_nodes _ _ (proj1 C40_example) ex_file_runs) as (os' & R & E).
  exists os'. eexists. split; [exact R|]. apply filtered_kind in R. apply (f_equal (@length sobj)) in E.
  replace (filter (of_kind only_nodes) os') with os' in E; [symmetry; exact E|].
  clear E. induction R as [|o os' Ho _ IH]; [reflexivity|]. cbn [filter]. now rewrite Ho, <- IH.
Qed.

(** ** C41 *)

(** The group holds exactly one kind of object. *)
Definition exactly_one_kind (g : pgroup) : Prop :=
  one_kind g /\ (pg_nodes g <> [] \/ pg_dense g <> None \/ pg_ways g <> [] \/ pg_rels g <> []).
(** No data blob is empty. *)
Definition no_empty_blob (inflate : bytes -> option bytes) (b : blob) : Prop :=
  (bl_raw b <> None \/ bl_zlib b <> None) /\ bl_raw b <> Some [] /\ forall z, bl_zlib b = Some z -> inflate z <> Some [].
Definition plain_file (rt : pbrt) (inflate : bytes -> option bytes) (src : bytes) : Prop :=
  file_groups rt inflate exactly_one_kind src /\
  forall bs r, Runs (next_blob rt) src bs r -> Forall (no_empty_blob inflate) bs.

Lemma filter_map_none {A B} (f : A -> option B) l : Forall (fun x => f x = None) l -> filter_map f l = [].
Proof. induction 1 as [|x l E _ IH]; [reflexivity|]. cbn [filter_map]. now rewrite E. Qed.
Lemma filter_map_concat {A B} (f : A -> option B) ls : filter_map f (concat ls) = concat (map (filter_map f) ls).
Proof. induction ls as [|l ls IH]; [reflexivity|]. cbn [concat map]. now rewrite filter_map_app, IH. Qed.

Lemma group_positions chk gran lato lono dg raw g l : exactly_one_kind g ->
  s_decode_group chk gran lato lono dg raw (OF true true true) g = Ret l ->
  p_decode_group chk gran lato lono g = Ret (filter_map node_pos l).
Proof.
  intros (K & N) H. unfold s_decode_group, p_decode_group in *. cbv zeta in H. cbn [f_nodes f_ways f_rels] in H. rewrite !andb_true_r in H.
  destruct (pg_nodes g) as [|n0 ns0] eqn:En; [|discriminate]. cbn [nonempty] in *.
  destruct (pg_dense g) as [d|] eqn:Ed; cbn [is_some andb unwrap_or] in *.
  - destruct K as [(K & _)|[(_ & Kw & Kr)|[(_ & K & _)|(_ & K & _)]]]; try congruence. rewrite Kw, Kr. cbn [nonempty orb].
    destruct (s_strings raw) as [st|]; [|discriminate]. cbn [obind] in *. unfold s_decode_dense in H. unfold p_decode_dense.
    eapply p_dense_loop; [|exact H]. repeat split.
  - destruct (pg_ways g) as [|w ws] eqn:Ew; cbn [nonempty orb] in *.
    + destruct (pg_rels g) as [|r rs] eqn:Er; cbn [nonempty] in *.
      { exfalso. destruct N as [C|[C|[C|C]]]; contradiction. }
      destruct (s_strings raw) as [st|]; [|discriminate]. cbn [obind] in *. f_equal. symmetry. apply filter_map_none.
      apply omapM_inv in H. clear -H. induction H as [|p o ps os E _ IH]; constructor; [|exact IH].
      unfold s_decode_rel in E. binds E. now injection E as <-.
    + destruct (s_strings raw) as [st|]; [|discriminate]. cbn [obind] in *. f_equal. symmetry. apply filter_map_none.
      apply omapM_inv in H. clear -H. induction H as [|p o ps os E _ IH]; constructor; [|exact IH].
      unfold s_decode_way in E. binds E. now injection E as <-.
Qed.
Lemma blob_positions rt chk infl b l : blob_groups rt infl exactly_one_kind b -> no_empty_blob infl b ->
  s_blob rt chk infl (OF true true true) b = Ret l -> p_blob rt chk infl b = Ret (filter_map node_pos l).
Proof.
  intros K (N1 & N2 & N3) H. unfold s_blob, p_blob, s_blob_data in *.
  destruct (bl_raw b) as [[|x raw]|]; [contradiction|discriminate|].
  destruct (bl_zlib b) as [z|] eqn:Ez; [|exfalso; destruct N1; contradiction].
  destruct (infl z) as [data|] eqn:Ei; [|discriminate]. cbn [unwrap obind] in *.
  destruct data as [|x data]; [exfalso; exact (N3 z eq_refl Ei)|].
  destruct (parse_block rt (x :: data)) as [blk|] eqn:Ep; [|discriminate]. cbn [unwrap obind] in *.
  specialize (K z (x :: data) blk Ez Ei Ep). unfold s_decode_block in H. unfold p_decode_block. destruct (pb_strings blk) as [raw|]; [|discriminate].
  cbn [unwrap obind] in *. destruct (pb_groups blk) as [|g [|]]; try discriminate. inv K. cbn [omapM].
  erewrite group_positions; [|eassumption|exact H]. cbn [obind concat]. now rewrite app_nil_r.
Qed.

(** What holds: on files whose blobs and groups are not empty, with one kind of object
    per group. *)
Theorem C41_positions_partial : forall rt chk inflate src os s,
  plain_file rt inflate src -> Runs (s_next rt chk inflate) (s_new src) os (Ret s) ->
  Runs (p_next rt chk inflate) (src, []) (filter_map node_pos os) (Ret (sr_src s, [])).
Proof.
  intros rt chk infl src os s (K & N) H. apply s_next_runs_inv in H as (r' & H & Er).
  cbn [s_new sr_filter sr_src sr_buf] in *. apply buffered_inv in H as (bs & rb & R & [(ls & F & -> & ->)|(bs1 & b & bs2 & ls & _ & _ & _ & _ & ->)]);
    [|discriminate]. destruct rb as [rb|]; [|discriminate]. injection Er as ->. cbn [sr_src fst app].
  rewrite filter_map_concat. assert (F' : Forall2 (fun b l => p_blob rt chk infl b = Ret l) bs (map (filter_map node_pos) ls)).
  { apply Forall2_map_r. eapply Forall2_with2; [|exact (K _ _ R)|exact (N _ _ R)|exact F]. intros b l Hb Hn Hd. now apply blob_positions. }
  exact (runs_buffered rt _ _ _ _ R _ [] F').
Qed.
Print Assumptions C41_positions_partial.
Example C41_example : plain_file ex_rt Some ex_file /\
  exists os, Runs (s_next ex_rt (plain true) Some) (s_new ex_file) os (Ret (s_new [])) /\
    filter_map node_pos os = [(1, (515000000, -1000000)); (2, (5, 6))].
Proof.
  split; [split|].
  - apply ex_file_groups. constructor; [|constructor; [|constructor; [|constructor]]]; (split; [unfold one_kind; cbn; tauto|]).
    + right. left. discriminate.
    + right. right. left. discriminate.
    + right. right. right. discriminate.
  - intros bs r R. destruct ex_file_items as (is & Hi & E & Eb). rewrite E in R.
    destruct (Runs_det _ _ _ _ R _ _ (C33_data_blobs_in_order ex_rt is Hi)) as [-> _]. rewrite Eb.
    constructor; [|constructor; [|constructor; [|constructor]]]; (split; [right; discriminate|split; [discriminate|]]; intros z Ez Ei; injection Ez as <-;
      apply (f_equal (fun o => match o with Some [] => true | _ => false end)) in Ei; vm_compute in Ei; discriminate).
  - eexists. split; [exact ex_file_runs|reflexivity].
Qed.

(** Otherwise the readers differ: on a group of dense nodes that also holds ways or
    relations, the full reader yields the nodes and the position reader none; on a
    group without objects, or a blob without data, the full reader yields nothing and the
    position reader panics. *)
Theorem C41_positions_refuted : forall rt chk inflate,
  (forall b d ws rs cs os, pb_groups b = [PGroup [] (Some d) ws rs cs] -> ws <> [] \/ rs <> [] ->
     s_decode_block chk (OF true true true) b = Ret os ->
     length (filter_map node_pos os) = length (dn_id d) /\ p_decode_block chk b = Ret []) /\
  (forall b st cs, pb_strings b = Some st -> pb_groups b = [PGroup [] None [] [] cs] ->
     s_decode_block chk (OF true true true) b = Ret [] /\ p_decode_block chk b = Panic) /\
  (forall b z n, b = Blob None (Some n) (Some z) None None -> inflate z = Some [] ->
     s_blob rt chk inflate (OF true true true) b = Ret [] /\ p_blob rt chk inflate b = Panic).
Proof.
  intros rt chk infl. split; [|split].
  - intros b d ws rs cs os Hg Hn H. split.
    + unfold s_decode_block in H. destruct (pb_strings b) as [raw|]; [|discriminate]. cbn [unwrap obind] in H. rewrite Hg in H.
      unfold s_decode_group in H. cbv zeta in H. cbn [pg_nodes pg_dense is_some nonempty andb f_nodes unwrap_or] in H.
      destruct (s_strings raw) as [st|]; [|discriminate]. cbn [obind] in H. unfold s_decode_dense in H.
      assert (P : same_pos (ds0 (dn_keys_vals d)) (ds0 [])) by (repeat split).
      apply (p_dense_loop chk _ _ _ _ _ _ _ _ _ _ (ds0 []) _ P) in H. eapply dense_loop_len. exact H.
    + unfold p_decode_block. rewrite Hg. cbn [omapM]. unfold p_decode_group. cbn [pg_nodes pg_ways pg_rels nonempty].
      assert (nonempty ws || nonempty rs = true) as ->; [|reflexivity]. destruct Hn as [Hn|Hn].
      * now destruct ws.
      * destruct rs; [contradiction|]. now rewrite orb_true_r.
  - intros b st cs Hs Hg. split.
    + unfold s_decode_block. rewrite Hs, Hg. reflexivity.
    + unfold p_decode_block. rewrite Hg. reflexivity.
  - intros b z n -> Hz. split.
    + unfold s_blob, s_blob_data. cbn [bl_raw bl_zlib]. rewrite Hz. reflexivity.
    + unfold p_blob, s_blob_data. cbn [bl_raw bl_zlib]. rewrite Hz. reflexivity.
Qed.
Print Assumptions C41_positions_refuted.
Example C41_refuted_example : exists b d ws os, message b /\ pb_groups b = [PGroup [] (Some d) ws [] []] /\ ws <> [] /\
  s_decode_block (plain true) (OF true true true) b = Ret os /\ length os = 1%nat.
Proof.
  exists (PBlock (Some [[]; [117]]) [PGroup [] (Some (dense_of [1] [2] [3] [4])) [PWay (Some 7) [] [] None []] [] []] None None None None).
  do 3 eexists. split; [|split; [reflexivity|split; [discriminate|split; [vm_compute; reflexivity|reflexivity]]]].
  split; [|reflexivity]. split; [|repeat split]. constructor; [|constructor]. split; [constructor|]. split.
  - cbn. repeat split; repeat constructor; unfold in_i64, in_i32; lia.
  - split; [|repeat split; constructor]. constructor; [|constructor]. repeat split; try constructor; cbn; unfold in_i64; lia.
Qed.

(** ** C42, whole files *)

Lemma blob_agree rt chk infl b so ao : s_blob rt chk infl (OF true true true) b = Ret so -> a_blob rt chk infl b = Ret ao ->
  Forall2 (fun a s => (forall f, a_get a f = s_get s f) /\ (NoDup (map fst (s_tags s)) -> sobj_of_aobj a = s)) ao so.
Proof.
  intros Hs Ha. unfold s_blob, s_blob_data in Hs. unfold a_blob, a_blob_data in Ha.
  destruct (bl_raw b) as [[|x raw]|]; [discriminate Ha|discriminate Hs|].
  destruct (bl_zlib b) as [z|]; [|discriminate Ha]. destruct (bl_raw_size b) as [n|]; [|discriminate Ha]. cbn [unwrap obind] in *.
  destruct (n <? 0); [discriminate Ha|]. destruct (infl z) as [[|x data]|]; [discriminate Ha| |discriminate Ha]. cbn [unwrap obind] in *.
  destruct (parse_block rt (x :: data)) as [blk|]; [|discriminate Ha]. cbn [unwrap obind] in *.
  exact (proj1 (C42_readers_agree chk blk so Hs) ao Ha).
Qed.

(** On every file that both readers read to the end, they yield the same objects. *)
Theorem C42_files : forall rt chk inflate src so s ao s',
  Runs (s_next rt chk inflate) (s_new src) so (Ret s) -> Runs (a_next rt chk inflate) (src, []) ao (Ret s') ->
  Forall2 (fun a s => (forall f, a_get a f = s_get s f) /\ (NoDup (map fst (s_tags s)) -> sobj_of_aobj a = s)) ao so.
Proof.
  intros rt chk infl src so s ao s' Hs Ha.
  apply s_next_runs_inv in Hs as (r1 & Hs & E1). apply a_next_runs_inv in Ha as (r2 & Ha & E2). cbn [s_new sr_filter sr_src sr_buf] in *.
  apply buffered_inv in Hs as (bs & rb & R & [(ls & F & -> & _)|(_ & _ & _ & _ & _ & _ & _ & _ & ->)]); [|discriminate].
  apply buffered_inv in Ha as (bs' & rb' & R' & [(ls' & F' & -> & _)|(_ & _ & _ & _ & _ & _ & _ & _ & ->)]); [|discriminate].
  destruct (Runs_det _ _ _ _ R _ _ R') as [<- _]. cbn [app]. apply Forall2_concat.
  eapply Forall2_trans2; [|exact F'|exact F]. intros b a s0 H1 H2. now apply (blob_agree rt chk infl b).
Qed.
Print Assumptions C42_files.
Example C42_files_example : exists ao, Runs (a_next ex_rt (plain true) Some) (ex_file, []) ao (Ret ([], [])) /\ length ao = 4%nat.
Proof.
  destruct C43_example as (H1 & H2 & H3 & _ & H4). eexists.
  split; [exact (proj2 (C43_write_read ex_rt (plain true) ex_id Some [1; 2] ex_ks H4 H3 H1 H2))|reflexivity].
Qed.
