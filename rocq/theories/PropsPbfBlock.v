(** Properties C35-C39, C42, C44-C46 and C62: what the PBF readers make of the
    messages in a block. *)
From Coq Require Import String ZArith List Bool Lia.
From Verif Require Import Base Utf8 Timestamp Obj ObjFacts SpecObj PbWire PbMsg PbMsgFacts PbfRead SpecPbf SpecPbfRead
  PbfFacts PbfExact PbfEncode PbRange PbfSound PropsPbfFile.
Import ListNotations.
Open Scope Z_scope.

(** The objects that a reader decodes from the block [b] with string table [raw]:
    the String reader, or the Arc reader on a table of text, seen as fields. *)
Definition decodes (rt : pbrt) (chk : build) (b : pblock) (raw : string_table) (os : list sobj) : Prop :=
  (exists data, parse_block rt data = Some b) /\ pb_strings b = Some raw /\
  (s_decode_block chk (OF true true true) b = Ret os \/
   text_table raw /\ exists ao, a_decode_block chk b = Ret ao /\ os = map a_view ao).

Lemma view_fields o f : s_get (a_view o) f = a_get o f.
Proof. destruct o as [[m [t|] l]|w|r], f; reflexivity. Qed.

Lemma Forall2_both {A B} (P : A -> Prop) (R Q : A -> B -> Prop) l l' :
  (forall a b, P a -> R a b -> Q a b) -> (forall a, In a l -> P a) -> Forall2 R l l' -> Forall2 Q l l'.
Proof. intros H F. apply Forall2_with with (P := P); [exact H|now apply Forall_forall]. Qed.

Lemma s_group_read (chk : build) b raw st g l : s_strings raw = Ret st -> ok_group g ->
  Forall (fun p => is_some (pr_id p) = true) (pg_rels g) ->
  s_decode_group chk (gran_of b) (lat_off_of b) (lon_off_of b) (date_gran_of b) raw (OF true true true) g = Ret l ->
  group_read chk b raw g l.
Proof.
  intros Hs (_ & Od & Ow & Or & _) Hi E. unfold s_decode_group in E. cbv zeta in E.
  cbn [f_nodes f_ways f_rels] in E. rewrite !andb_true_r, Hs in E. cbn [obind] in E.
  destruct (nonempty (pg_nodes g)); [discriminate|]. split; [|split].
  - intros d Hd. rewrite Hd in E, Od. cbn [is_some unwrap_or] in E. eapply s_dense_read; eassumption.
  - intros Hd Hw. rewrite Hd in E. cbn [is_some] in E.
    destruct (nonempty (pg_ways g)) eqn:N; [|destruct (pg_ways g); [contradiction|discriminate]].
    apply omapM_inv in E. eapply Forall2_with; [|exact Ow|exact E]. intros p o Hok Ho.
    eapply s_way_read; eassumption.
  - intros Hd Hw. rewrite Hd, Hw in E. cbn [is_some nonempty] in E.
    destruct (pg_rels g) as [|r rs]; [injection E as <-; constructor|]. cbn [nonempty] in E.
    apply omapM_inv in E. eapply Forall2_with2; [|exact Or|exact Hi|exact E]. intros p o Hok Hid Ho. eapply s_rel_read; eassumption.
Qed.

Lemma a_group_read (chk : build) b raw st g l : s_strings raw = Ret st -> ok_group g ->
  Forall (fun p => is_some (pw_id p) = true) (pg_ways g) ->
  Forall (fun p => is_some (pr_id p) = true) (pg_rels g) ->
  a_decode_group chk (gran_of b) (lat_off_of b) (lon_off_of b) (date_gran_of b) (map Some st) g = Ret l ->
  group_read chk b raw g (map a_view l).
Proof.
  intros Hs (_ & Od & Ow & Or & _) Hj Hi E. unfold a_decode_group in E. cbv zeta in E.
  destruct (nonempty (pg_nodes g)); [discriminate|]. split; [|split].
  - intros d Hd. rewrite Hd in E, Od. cbn [is_some unwrap_or] in E. eapply a_dense_read; eassumption.
  - intros Hd Hw. rewrite Hd in E. cbn [is_some] in E.
    destruct (nonempty (pg_ways g)) eqn:N; [|destruct (pg_ways g); [contradiction|discriminate]].
    apply omapM_inv in E. apply Forall2_map_r. eapply Forall2_with2; [|exact Ow|exact Hj|exact E]. intros p o Hok Hid Ho. eapply a_way_read; eassumption.
  - intros Hd Hw. rewrite Hd, Hw in E. cbn [is_some nonempty] in E.
    destruct (pg_rels g) as [|r rs]; [discriminate|]. cbn [nonempty] in E.
    apply omapM_inv in E. apply Forall2_map_r. eapply Forall2_with2; [|exact Or|exact Hi|exact E]. intros p o Hok Hid Ho. eapply a_rel_read; eassumption.
Qed.

Lemma decoded_groups rt chk b raw os : decodes rt chk b raw os -> per_group b os (group_read chk b raw).
Proof.
  intros ((data & Hp) & Hr & H). pose proof (block_range _ _ _ Hp) as (Ok & _). pose proof (parsed_init _ _ _ Hp) as Hin.
  destruct H as [H|(Ht & ao & H & ->)].
  - unfold s_decode_block in H. rewrite Hr in H. cbn [unwrap obind] in H.
    unfold per_group. destruct (pb_groups b) as [|g [|g1 gs]] eqn:Eg; try discriminate.
    exists [os]. split; [cbn; now rewrite app_nil_r|]. constructor; [|constructor]. inv Ok.
    destruct (init_group b g Hin) as (_ & Hi); [rewrite Eg; now left|].
    assert (exists st, s_strings raw = Ret st \/ os = [] /\ pg_dense g = None /\ pg_ways g = [] /\ pg_rels g = []) as (st & [Hs|D]).
    { unfold s_decode_group in H. cbv zeta in H. cbn [f_nodes f_ways f_rels] in H. rewrite !andb_true_r in H.
      destruct (nonempty (pg_nodes g)); [discriminate|]. destruct (s_strings raw) as [st|]; [exists st; now left|].
      exists []. right. destruct (pg_dense g); [discriminate|]. destruct (pg_ways g); [|discriminate].
      destruct (pg_rels g); [|discriminate]. injection H as <-. repeat split. }
    + eapply s_group_read; eassumption.
    + destruct D as (-> & D1 & D2 & D3). split; [|split]; intros; try congruence. rewrite D3. constructor.
  - destruct (text_table_strings _ Ht) as (st & Hs).
    destruct (a_block_groups _ _ _ _ _ Hs Hr H) as (ls & -> & F).
    exists (map (map a_view) ls). split; [apply concat_map|]. apply Forall2_map_r.
    eapply Forall2_both with (P := fun g => In g (pb_groups b)); [|intros a Ha; exact Ha|exact F].
    intros g l Hg E. destruct (init_group b g Hin Hg) as (Hj & Hi). rewrite Forall_forall in Ok.
    eapply a_group_read; try eassumption. now apply Ok.
Qed.

Lemma per_group_mono b os (P Q : pgroup -> list sobj -> Prop) : (forall g l, P g l -> Q g l) ->
  per_group b os P -> per_group b os Q.
Proof. intros H (ls & E & F). exists ls. split; [exact E|]. eapply Forall2_mono; eassumption. Qed.

(** ** C35 *)

Theorem C35_dense_nodes : forall rt chk b raw os, decodes rt chk b raw os ->
  per_group b os (fun g l => forall d, pg_dense g = Some d -> dense_objs chk b raw d l).
Proof.
  intros rt chk b raw os H. eapply per_group_mono; [|eapply decoded_groups; exact H]. intros g l (G & _). exact G.
Qed.
Print Assumptions C35_dense_nodes.

(** ** C36 *)

Theorem C36_ways_relations : forall rt chk b raw os, decodes rt chk b raw os ->
  per_group b os (fun g l => pg_dense g = None ->
    (pg_ways g <> [] -> Forall2 (way_read chk raw) (pg_ways g) l) /\
    (pg_ways g = [] -> Forall2 (rel_read chk raw) (pg_rels g) l)).
Proof.
  intros rt chk b raw os H. eapply per_group_mono; [|eapply decoded_groups; exact H].
  intros g l (_ & G1 & G2) Hd. split; auto.
Qed.
Print Assumptions C36_ways_relations.

(** ** Blocks for examples and counterexamples *)

(** [n] dense nodes: granularity, date granularity, and the columns for id, lat,
    lon and timestamp; user "" and no tags. *)
Definition dense_of (ids lats lons ts : list Z) : dense_nodes :=
  let zeros := map (fun _ => 0) ids in
  DenseNodes ids (Some (DenseInfo (map (fun _ => 1) ids) ts zeros zeros zeros [])) lats lons zeros.
Definition dense_block (gran dg : Z) (ids lats lons ts : list Z) : pblock :=
  PBlock (Some [[]; [117]]) [PGroup [] (Some (dense_of ids lats lons ts)) [] [] []] (Some gran) None None (Some dg).
(** One way. *)
Definition way_block (dg : Z) (vis : option bool) (ts : Z) : pblock :=
  PBlock (Some [[]; [117]]) [PGroup [] None [PWay (Some 7) [1] [0] (Some (Info (Some 1) (Some ts) (Some 3) (Some 4) (Some 1) vis)) [10; -1]] [] []]
    None None None (Some dg).
(** One relation. *)
Definition rel_block (vis : option bool) (roles ids types : list Z) : pblock :=
  PBlock (Some [[]; [117]]) [PGroup [] None [] [PRel (Some 8) [1] [0] (Some (Info (Some 1) (Some 5) (Some 3) (Some 4) (Some 1) vis)) roles ids types] []]
    None None None None.

(** A message that can be written and parsed. *)
Definition message (b : pblock) : Prop := ok_block b /\ pb_init b = true.

(** Two dense nodes, the second with a tag and deleted. *)
Definition ex_dense : pblock :=
  PBlock (Some [[]; [117]; [195; 188]])
    [PGroup [] (Some (DenseNodes [10; 5]
        (Some (DenseInfo [1; 2] [1000; 60] [7; -2] [3; 1] [1; 1] [true; false]))
        [500000000; -10] [-70000000; 20] [0; 1; 2; 2; 1; 0])) [] [] []] None None None None.
Example C35_example : exists os, decodes ex_rt (plain true) ex_dense [[]; [117]; [195; 188]] os /\ length os = 2%nat /\
  nth_error os 1 = Some (SNode (SN (Meta 15 (Some 2) true (Some 5) (Some (EpochNumber 1060)) (Some 4) (Some [252]))
    [([117], [252]); ([252], [117])] (Some (499999990, -69999980)))).
Proof.
  eexists. split; [|split].
  - split; [exists (ser (pb_fields ex_dense)); vm_compute; reflexivity|]. split; [reflexivity|]. left. vm_compute. reflexivity.
  - reflexivity.
  - vm_compute. reflexivity.
Qed.
Example C36_example : exists os1 os2,
  decodes ex_rt (plain true) (way_block 1000 (Some true) 1000) [[]; [117]] os1 /\
  decodes ex_rt (plain true) (rel_block (Some true) [1; 0] [100; -1] [0; 2]) [[]; [117]] os2 /\
  os1 = [SWay (SW (Meta 7 (Some 1) false (Some 3) (Some (EpochNumber 1000)) (Some 4) (Some [117])) [([117], [])] [10; 9])] /\
  os2 = [SRel (SR (Meta 8 (Some 1) false (Some 3) (Some (EpochNumber 5)) (Some 4) (Some [117])) [([117], [])]
          [(TNode, 100, [117]); (TRelation, 99, [])])].
Proof.
  do 2 eexists. split; [|split; [|split; reflexivity]].
  - split; [exists (ser (pb_fields (way_block 1000 (Some true) 1000))); vm_compute; reflexivity|]. split; [reflexivity|].
    left. vm_compute. reflexivity.
  - split; [exists (ser (pb_fields (rel_block (Some true) [1; 0] [100; -1] [0; 2]))); vm_compute; reflexivity|]. split; [reflexivity|].
    left. vm_compute. reflexivity.
Qed.

(** ** C42: the readers agree *)

(** The group is not empty, and ways and relations say whether they are visible; of
    a relation with more member types than members, the type after the last member is
    known if it is looked at. *)
Definition arc_ready (chk : build) (g : pgroup) : bool :=
  is_some (pg_dense g) ||
  (nonempty (pg_ways g) && forallb (fun p => flagged (pw_info p)) (pg_ways g)) ||
  (negb (nonempty (pg_ways g)) && nonempty (pg_rels g) && forallb (fun p => rest_known chk p && flagged (pr_info p)) (pg_rels g)).

Lemma dense_loop_len {A} (step : nat -> dense_state -> outcome (A * dense_state)) n i s l :
  dense_loop step n i s = Ret l -> length l = n.
Proof.
  revert i s l; induction n as [|n IH]; intros i s l H; cbn [dense_loop] in H.
  - now injection H as <-.
  - binds H. injection H as <-. cbn. f_equal. eapply IH. eassumption.
Qed.

Lemma s_kv_nonempty chk gran lato lono dg st d os : dn_id d <> [] ->
  s_decode_dense chk gran lato lono dg st d = Ret os -> dn_keys_vals d <> [].
Proof.
  intros Hi H C. unfold s_decode_dense in H. destruct (dn_id d) as [|i0 ids] eqn:E; [contradiction|].
  cbn [length dense_loop] in H. unfold s_dense_step at 1 in H. rewrite C in H. cbn [ds0 kv_left take_tags] in H.
  repeat match type of H with
  | obind (obind ?e _) _ = Ret _ => destruct e; [cbn [obind] in H|discriminate H]
  | Panic = Ret _ => discriminate H
  end.
Qed.

Lemma arc_block_gen chk b g so : s_decode_block chk (OF true true true) b = Ret so -> pb_groups b = [g] ->
  a_decode_block chk b = if arc_ready chk g then Ret (map arc_of so) else Panic.
Proof.
  intros H Hg. unfold s_decode_block in H. destruct (pb_strings b) as [raw|] eqn:Hr; [|discriminate].
  cbn [unwrap obind] in H. rewrite Hg in H. unfold a_decode_block. rewrite Hr, Hg. cbn [unwrap_or omapM].
  unfold s_decode_group in H. cbv zeta in *. cbn [f_nodes f_ways f_rels] in H. rewrite !andb_true_r in H.
  unfold a_decode_group, arc_ready.
  destruct (nonempty (pg_nodes g)); [discriminate|].
  destruct (pg_dense g) as [d|]; [|destruct (pg_ways g) as [|w ws]; [destruct (pg_rels g) as [|r rs]|]];
    cbn [is_some nonempty orb negb andb unwrap_or] in *.
  - destruct (s_strings raw) as [st|] eqn:Hs; [|discriminate]. cbn [obind] in H.
    rewrite (a_strings_some _ _ Hs).
    assert (E : a_decode_dense chk (granularity b) (lat_offset b) (lon_offset b) (Z.quot (date_granularity b) 1000) (map Some st) d = Ret (map arc_of so)).
    { destruct (dn_id d) as [|i0 ids] eqn:Ei.
      - unfold s_decode_dense in H. unfold a_decode_dense. rewrite Ei in *. cbn in *. now injection H as <-.
      - unfold a_decode_dense. apply a_dense_loop; [|exact H]. eapply s_kv_nonempty; [|exact H]. congruence. }
    rewrite E. cbn [obind concat]. now rewrite app_nil_r.
  - reflexivity.
  - destruct (s_strings raw) as [st|] eqn:Hs; [|discriminate]. cbn [obind] in H. rewrite (a_strings_some _ _ Hs).
    rewrite (omapM_flag _ (a_decode_rel chk (map Some st)) arc_of (fun p => rest_known chk p && flagged (pr_info p)) _ _ (fun p o _ => a_rel_some chk st p o) H).
    destruct (forallb _ (r :: rs)); cbn [obind concat]; [|reflexivity]. now rewrite app_nil_r.
  - destruct (s_strings raw) as [st|] eqn:Hs; [|discriminate]. cbn [obind] in H. rewrite (a_strings_some _ _ Hs).
    rewrite (omapM_flag _ (a_decode_way chk (map Some st)) arc_of (fun p => flagged (pw_info p)) _ _ (fun p o _ => a_way_some chk st p o) H).
    rewrite orb_false_r. destruct (forallb _ (w :: ws)); cbn [obind concat]; [|reflexivity]. now rewrite app_nil_r.
Qed.
Lemma arc_block chk b g so : s_decode_block chk (OF true true true) b = Ret so -> pb_groups b = [g] ->
  arc_ready chk g = true -> a_decode_block chk b = Ret (map arc_of so).
Proof. intros H1 H2 H3. rewrite (arc_block_gen _ _ _ _ H1 H2), H3. reflexivity. Qed.

Lemma view_arc o : a_view (arc_of o) = o.
Proof. now destruct o as [[m t l]|[m t n]|[m t l]]. Qed.

Theorem C42_readers_agree : forall chk b so, s_decode_block chk (OF true true true) b = Ret so ->
  (forall ao, a_decode_block chk b = Ret ao ->
     Forall2 (fun a s => (forall f, a_get a f = s_get s f) /\
                         (NoDup (map fst (s_tags s)) -> sobj_of_aobj a = s)) ao so) /\
  (forall g, pb_groups b = [g] -> arc_ready chk g = true -> exists ao, a_decode_block chk b = Ret ao).
Proof.
  intros chk b so H.
  assert (exists g, pb_groups b = [g]) as (g & Hg).
  { unfold s_decode_block in H. destruct (pb_strings b); [|discriminate]. cbn [unwrap obind] in H.
    destruct (pb_groups b) as [|g [|]]; try discriminate. now exists g. }
  pose proof (arc_block_gen _ _ _ _ H Hg) as E. split.
  - intros ao Ha. rewrite E in Ha. destruct (arc_ready chk g); [|discriminate]. injection Ha as <-.
    clear. induction so as [|s so IH]; cbn [map]; constructor; [|exact IH]. split.
    + intros f. rewrite <- view_fields, view_arc. reflexivity.
    + intros N. assert (N' : NoDup (map fst (a_tags (arc_of s)))) by (destruct s; exact N).
      assert (C : forall f, s_get (sobj_of_aobj (arc_of s)) f = a_get (arc_of s) f) by (intros f; now apply convert_get).
      assert (G : forall f, s_get (sobj_of_aobj (arc_of s)) f = s_get s f).
      { intros f. rewrite C, <- view_fields, view_arc. reflexivity. }
      clear C N N'. destruct s as [[m t l]|[m t n]|[m t l]];
        (match type of G with forall f, s_get ?x f = _ => destruct x as [[m' t' l']|[m' t' l']|[m' t' l']] eqn:Ex end);
        try (specialize (G FType); discriminate G).
      all: pose proof (G FId) as G1; pose proof (G FVersion) as G2; pose proof (G FDeleted) as G3; pose proof (G FChangeset) as G4;
        pose proof (G FTimestamp) as G5; pose proof (G FUid) as G6; pose proof (G FUser) as G7; pose proof (G FTags) as G8;
        pose proof (G FLatLon) as G9; pose proof (G FNodes) as G10; pose proof (G FMembers) as G11;
        cbn in G1, G2, G3, G4, G5, G6, G7, G8, G9, G10, G11; destruct m, m'; cbn in *; congruence.
  - intros g' Hg' Hr. rewrite Hg in Hg'. injection Hg' as <-. rewrite E, Hr. eexists. reflexivity.
Qed.
Print Assumptions C42_readers_agree.
Example C42_example : exists so ao g, s_decode_block (plain true) (OF true true true) ex_dense = Ret so /\ length so = 2%nat /\
  a_decode_block (plain true) ex_dense = Ret ao /\ pb_groups ex_dense = [g] /\ arc_ready (plain true) g = true /\
  map sobj_of_aobj ao = so.
Proof. do 3 eexists. repeat (split; [vm_compute; reflexivity|]). vm_compute. reflexivity. Qed.

(** ** C37 *)

(** What holds: granularity and offset whole multiples of 100 nanodegrees, and a
    coordinate that fits its 32-bit field. *)
Theorem C37_coordinates_partial : forall rt chk b raw os, decodes rt chk b raw os ->
  per_group b os (fun g l => forall d, pg_dense g = Some d -> length l = length (dn_id d) /\
    forall i o k j1 j2, nth_error l i = Some o -> gran_of b = 100 * k -> lat_off_of b = 100 * j1 -> lon_off_of b = 100 * j2 ->
      exists n la lo, o = SNode n /\ sn_latlon n = Some (la, lo) /\
        (in_i32 (j1 + k * sum_to i (dn_lat d)) -> coord_is (gran_of b) (lat_off_of b) (sum_to i (dn_lat d)) la) /\
        (in_i32 (j2 + k * sum_to i (dn_lon d)) -> coord_is (gran_of b) (lon_off_of b) (sum_to i (dn_lon d)) lo)).
Proof.
  intros rt chk b raw os H. eapply per_group_mono; [|eapply C35_dense_nodes; exact H].
  intros g l G d Hd. destruct (G d Hd) as (L & di & runs & _ & _ & _ & D). split; [exact L|].
  intros i o k j1 j2 Ho Hg H1 H2. destruct (D i o Ho) as (n & -> & R). destruct (dr_pos _ _ _ _ _ _ _ _ R) as (la & lo & Ep & P1 & P2).
  exists n, la, lo. split; [reflexivity|]. split; [exact Ep|]. unfold coord_is. split; intros Hin.
  - destruct P1 as (_ & I & (q & E) & _). rewrite Hg, H1, (Z.mul_comm 100 k), (Z.mul_comm 100 j1), !Z.quot_mul in E by lia.
    rewrite (i32_unique _ _ _ Hin I E), Hg, H1. lia.
  - destruct P2 as (_ & I & (q & E) & _). rewrite Hg, H2, (Z.mul_comm 100 k), (Z.mul_comm 100 j2), !Z.quot_mul in E by lia.
    rewrite (i32_unique _ _ _ Hin I E), Hg, H2. lia.
Qed.
Print Assumptions C37_coordinates_partial.
Example C37_example : exists os, decodes ex_rt (plain true) ex_dense [[]; [117]; [195; 188]] os /\
  gran_of ex_dense = 100 * 1 /\ lat_off_of ex_dense = 100 * 0 /\ lon_off_of ex_dense = 100 * 0 /\
  in_i32 (0 + 1 * sum_to 1 [500000000; -10]).
Proof.
  destruct C35_example as (os & H & _). exists os. split; [exact H|]. repeat split; vm_compute; discriminate.
Qed.

Lemma message_dense gran dg ids lats lons ts : in_i32 gran -> in_i32 dg -> Forall in_i64 ids -> Forall in_i64 lats ->
  Forall in_i64 lons -> Forall in_i64 ts -> message (dense_block gran dg ids lats lons ts).
Proof.
  intros Hg Hd H1 H2 H3 H4.
  assert (Z64 : Forall in_i64 (map (fun _ : Z => 0) ids)) by (apply Forall_map_iff, Forall_forall; unfold in_i64; lia).
  assert (Z32 : Forall in_i32 (map (fun _ : Z => 0) ids)) by (apply Forall_map_iff, Forall_forall; unfold in_i32; lia).
  assert (O32 : Forall in_i32 (map (fun _ : Z => 1) ids)) by (apply Forall_map_iff, Forall_forall; unfold in_i32; lia).
  split; [|reflexivity]. split; [|split; [exact Hg|split; [exact I|split; [exact I|exact Hd]]]].
  constructor; [|constructor]. split; [constructor|]. split; [|repeat split; constructor].
  split; [exact H1|]. split; [|split; [exact H2|split; [exact H3|exact Z32]]].
  split; [exact O32|]. split; [exact H4|]. split; [exact Z64|]. split; [exact Z32|exact Z32].
Qed.

Lemma one_node chk gran dg x : in_i32 gran -> in_i32 dg -> in_i32 x ->
  in_i32 (x * Z.quot gran 100) -> in_i32 (x * Z.quot dg 1000) ->
  s_decode_block chk (OF true true true) (dense_block gran dg [1] [x] [0] [x]) =
  Ret [SNode (SN (Meta 1 (Some 1) false (Some 0) (Some (EpochNumber (x * Z.quot dg 1000))) (Some 0) (Some [])) []
         (Some (x * Z.quot gran 100, 0)))].
Proof.
  intros Hg Hd Hx H1 H2. unfold s_decode_block, dense_block, s_decode_group. cbn [pb_strings pb_groups unwrap obind pg_nodes pg_dense pg_ways pg_rels nonempty is_some f_nodes f_ways f_rels andb].
  change (s_strings [[]; [117]]) with (Ret [[]; [117]] : outcome (list str)). cbn [obind unwrap_or].
  unfold s_decode_dense, dense_of. cbn [dn_id length dense_loop dn_info unwrap_or dn_keys_vals map].
  unfold s_dense_step, dense_raw, dense_internal, COORD_PRECISION_NANOS, granularity, lat_offset, lon_offset, date_granularity.
  cbn [dn_id dn_lat dn_lon at_ nth_error unwrap obind ds0 last_id last_lat last_lon unwrap_or pb_granularity pb_lat_offset pb_lon_offset pb_date_granularity].
  change (1 + 0) with 1. rewrite ?(Z.add_0_r x). rewrite ?Z.add_0_r.
  rewrite (arith_i64_ok chk 1) by (unfold in_i64; lia). cbn [obind].
  rewrite (arith_i64_ok chk x) by (unfold in_i64, in_i32 in *; lia). cbn [obind].
  rewrite ?(arith_i64_ok chk 0) by (unfold in_i64; lia). cbn [obind].
  unfold try_i32. rewrite (proj2 (in_i32b_iff x)) by exact Hx. cbn [obind].
  change (in_i32b 0) with true. cbn [obind].
  rewrite (arith_i32_ok chk (x * Z.quot gran 100)) by exact H1. cbn [obind].
  change (0 * Z.quot gran 100) with 0. rewrite ?(arith_i32_ok chk 0) by (unfold in_i32; lia). cbn [obind].
  change (as_i32 (Z.quot 0 100)) with 0. rewrite ?Z.add_0_r, (arith_i32_ok chk (x * Z.quot gran 100)) by exact H1. cbn [obind].
  rewrite ?(arith_i32_ok chk 0) by (unfold in_i32; lia). cbn [obind].
  cbn [take_tags kv_left Z.eqb obind omapM].
  unfold dense_meta. cbn [di_changeset di_uid di_user_sid di_timestamp di_version di_visible at_ nth_error unwrap obind last_changeset last_uid last_user_sid last_timestamp].
  rewrite ?Z.add_0_r. rewrite ?(arith_i64_ok chk 0) by (unfold in_i64; lia). cbn [obind].
  rewrite ?(arith_i32_ok chk 0) by (unfold in_i32; lia). cbn [obind].
  rewrite (as_i32_id x) by exact Hx. rewrite (arith_i32_ok chk x) by exact Hx. cbn [obind].
  rewrite (arith_i32_ok chk (x * Z.quot dg 1000)) by exact H2. cbn [obind].
  reflexivity.
Qed.

(** Every granularity that is not a multiple of 100 misplaces nodes. *)
Theorem C37_coordinates_refuted : forall chk gran, in_i32 gran -> gran mod 100 <> 0 ->
  exists b os d n la lo, message b /\ gran_of b = gran /\ lat_off_of b = 0 /\
    s_decode_block chk (OF true true true) b = Ret os /\ a_decode_block chk b = Ret (map arc_of os) /\
    pb_groups b = [PGroup [] (Some d) [] [] []] /\ nth_error os 0 = Some (SNode n) /\ sn_latlon n = Some (la, lo) /\
    ~ coord_is gran 0 (sum_to 0 (dn_lat d)) la.
Proof.
  intros chk gran Hg Hm.
  assert (Hq : Z.quot gran 100 * 100 <> gran).
  { intros C. apply Hm. rewrite <- C. now rewrite Z.mod_mul by lia. }
  pose proof (Z.quot_rem' gran 100) as Hqr. pose proof (Z.rem_bound_abs gran 100 ltac:(lia)) as Hrb.
  unfold in_i32 in Hg.
  assert (Hi : in_i32 (100 * Z.quot gran 100)).
  { unfold in_i32. destruct (Z.lt_ge_cases gran 0) as [N|N].
    - pose proof (Z.rem_bound_pos_neg gran 100 ltac:(lia) ltac:(lia)) as B. clear Hm Hq. lia.
    - pose proof (Z.rem_bound_pos gran 100 ltac:(lia) ltac:(lia)) as B. clear Hm Hq. lia. }
  pose proof (one_node chk gran 1000 100 Hg ltac:(unfold in_i32; lia) ltac:(unfold in_i32; lia) Hi ltac:(unfold in_i32; cbn; lia)) as E.
  do 6 eexists. split; [|split; [|split; [|split; [exact E|split; [|split; [|split; [|split]]]]]]]; try reflexivity.
  - apply message_dense; try exact Hg; repeat constructor; unfold in_i64, in_i32; lia.
  - eapply arc_block; [exact E|reflexivity|reflexivity].
  - unfold coord_is, sum_to. cbn. lia.
Qed.
Print Assumptions C37_coordinates_refuted.

(** ** C38 *)

(** What holds: dates counted in seconds (date granularity 1000, the default), and
    for dense nodes a time that fits 32 bits. *)
Theorem C38_timestamps_partial : forall rt chk b raw os, decodes rt chk b raw os -> date_gran_of b = 1000 ->
  per_group b os (fun g l =>
    (forall d, pg_dense g = Some d -> length l = length (dn_id d) /\
       forall i o, nth_error l i = Some o -> exists di, dn_info d = Some di /\
         (in_i32 (sum_to i (di_timestamp di)) ->
          time_is (date_gran_of b) (sum_to i (di_timestamp di)) (m_timestamp (s_meta o)))) /\
    (pg_dense g = None -> pg_ways g <> [] ->
       Forall2 (fun p o => exists inf ts, pw_info p = Some inf /\ i_timestamp inf = Some ts /\
                   time_is (date_gran_of b) ts (m_timestamp (s_meta o))) (pg_ways g) l) /\
    (pg_dense g = None -> pg_ways g = [] ->
       Forall2 (fun p o => exists inf ts, pr_info p = Some inf /\ i_timestamp inf = Some ts /\
                   time_is (date_gran_of b) ts (m_timestamp (s_meta o))) (pg_rels g) l)).
Proof.
  intros rt chk b raw os H D. eapply per_group_mono; [|eapply decoded_groups; exact H].
  intros g l (G1 & G2 & G3). split; [|split].
  - intros d Hd. destruct (G1 d Hd) as (L & di & runs & Edi & _ & _ & R). split; [exact L|].
    intros i o Ho. destruct (R i o Ho) as (n & -> & [_ _ _ R4 R5 _ _ _ _]). destruct (dn_info d) as [x|].
    + subst di. exists x. split; [reflexivity|]. intros Hin. destruct R5 as (t & E1 & I & (q & Eq) & _).
      rewrite D in Eq. change (Z.quot 1000 1000) with 1 in Eq. rewrite compounded_one in Eq. fold (sum_to i (di_timestamp x)) in Eq.
      exists t. split; [exact E1|]. rewrite (i32_unique _ _ _ Hin I Eq), D. reflexivity.
    + exfalso. subst di. destruct R4 as (v & x & C & _). now destruct i.
  - intros Hd Hw. eapply Forall2_mono; [|exact (G2 Hd Hw)]. intros p o (w & -> & _ & M & _).
    destruct M as (inf & v & ts & cs & uid & sid & x & y & z & u & E1 & _ & _ & _ & E2 & E3 & _).
    exists inf, ts. split; [exact E1|]. split; [exact E2|]. exists ts. split; [exact E3|]. rewrite D. reflexivity.
  - intros Hd Hw. eapply Forall2_mono; [|exact (G3 Hd Hw)]. intros p o (w & -> & _ & M & _).
    destruct M as (inf & v & ts & cs & uid & sid & x & y & z & u & E1 & _ & _ & _ & E2 & E3 & _).
    exists inf, ts. split; [exact E1|]. split; [exact E2|]. exists ts. split; [exact E3|]. rewrite D. reflexivity.
Qed.
Print Assumptions C38_timestamps_partial.

Lemma message_way dg vis ts : in_i32 dg -> in_i64 ts -> message (way_block dg vis ts).
Proof.
  intros Hd Ht. split; [|reflexivity]. split; [|split; [exact I|split; [exact I|split; [exact I|exact Hd]]]].
  constructor; [|constructor]. split; [constructor|]. split; [exact I|]. split; [|split; constructor].
  constructor; [|constructor]. split; [cbn; unfold in_i64; lia|]. split; [repeat constructor; lia|]. split; [repeat constructor; lia|].
  split; [|repeat constructor; lia]. cbn. unfold ok_info. cbn.
  split; [unfold in_i32; lia|]. split; [exact Ht|]. unfold in_i64, in_i32, in_u32; lia.
Qed.

(** Ways and relations: any other date granularity is ignored, by both readers. *)
Theorem C38_way_timestamps_refuted : forall chk dg, in_i32 dg -> dg <> 1000 ->
  exists b os w ts, message b /\ date_gran_of b = dg /\
    s_decode_block chk (OF true true true) b = Ret os /\ a_decode_block chk b = Ret (map arc_of os) /\
    os = [SWay w] /\ pb_groups b = [PGroup [] None [PWay (Some 7) [1] [0] (Some (Info (Some 1) (Some ts) (Some 3) (Some 4) (Some 1) (Some true))) [10; -1]] [] []] /\
    ~ time_is dg ts (m_timestamp (sw_meta w)).
Proof.
  intros chk dg Hd Hn. exists (way_block dg (Some true) 1000).
  assert (E : s_decode_block chk (OF true true true) (way_block dg (Some true) 1000) =
    Ret [SWay (SW (Meta 7 (Some 1) false (Some 3) (Some (EpochNumber 1000)) (Some 4) (Some [117])) [([117], [])] [10; 9])]).
  { destruct chk as [[|] ? ? ?]; vm_compute; reflexivity. }
  do 3 eexists. split; [|split; [|split; [exact E|split; [|split; [reflexivity|split; [reflexivity|]]]]]].
  - apply message_way; [exact Hd|unfold in_i64; lia].
  - reflexivity.
  - eapply arc_block; [exact E|reflexivity|reflexivity].
  - cbn. intros (s & E1 & E2). injection E1 as <-. lia.
Qed.
Print Assumptions C38_way_timestamps_refuted.

Lemma two_nodes chk k x y : in_i32 (1000 * k) -> in_i32 x -> in_i32 y -> in_i32 (x * k) -> in_i32 (y + x * k) -> in_i32 ((y + x * k) * k) ->
  exists n0 n1, s_decode_block chk (OF true true true) (dense_block 100 (1000 * k) [1; 1] [0; 0] [0; 0] [x; y]) = Ret [SNode n0; SNode n1] /\
    m_timestamp (sn_meta n0) = Some (EpochNumber (x * k)) /\
    m_timestamp (sn_meta n1) = Some (EpochNumber ((y + x * k) * k)).
Proof.
  intros Hk Hx Hy H1 H2 H3. do 2 eexists. split.
  - unfold s_decode_block, dense_block, s_decode_group. cbn [pb_strings pb_groups unwrap obind pg_nodes pg_dense pg_ways pg_rels nonempty is_some f_nodes f_ways f_rels andb].
    change (s_strings [[]; [117]]) with (Ret [[]; [117]] : outcome (list str)). cbn [obind unwrap_or].
    replace (Z.quot (date_granularity (PBlock _ _ _ _ _ _)) 1000) with k
      by (cbn [date_granularity pb_date_granularity unwrap_or]; unfold date_granularity; cbn [pb_date_granularity unwrap_or]; rewrite Z.mul_comm; symmetry; apply Z.quot_mul; lia).
    change (granularity (PBlock _ _ _ _ _ _)) with 100. change (lat_offset (PBlock _ _ _ _ _ _)) with 0. change (lon_offset (PBlock _ _ _ _ _ _)) with 0.
    unfold s_decode_dense, dense_of. cbn [dn_id length dense_loop dn_info unwrap_or dn_keys_vals map].
    match goal with |- context [s_dense_step _ 100 0 0 k _ ?d ?di 0 _] => set (dd := d); set (dii := di) end.
    assert (M0 : dense_meta chk k (at_z [[]; [117]]) dii 0 (ds0 [0; 0]) 1 =
      Ret (Meta 1 (Some 1) false (Some 0) (Some (EpochNumber (x * k))) (Some 0) (Some []), (x * k, 0, 0, 0))).
    { unfold dense_meta, dii. cbn [di_changeset di_uid di_user_sid di_timestamp di_version di_visible at_ nth_error unwrap obind ds0 last_changeset last_uid last_user_sid last_timestamp].
      rewrite ?Z.add_0_r, ?(arith_i64_ok chk 0) by (unfold in_i64; lia). cbn [obind].
      rewrite ?(arith_i32_ok chk 0) by (unfold in_i32; lia). cbn [obind].
      rewrite (as_i32_id x), (arith_i32_ok chk x) by exact Hx. cbn [obind]. rewrite (arith_i32_ok chk (x * k)) by exact H1.
      reflexivity. }
    assert (M1 : dense_meta chk k (at_z [[]; [117]]) dii 1 (DS 1 0 0 (x * k) 0 0 0 [0]) 2 =
      Ret (Meta 2 (Some 1) false (Some 0) (Some (EpochNumber ((y + x * k) * k))) (Some 0) (Some []), ((y + x * k) * k, 0, 0, 0))).
    { unfold dense_meta, dii. cbn [di_changeset di_uid di_user_sid di_timestamp di_version di_visible at_ nth_error unwrap obind ds0 last_changeset last_uid last_user_sid last_timestamp].
      rewrite ?Z.add_0_r, ?(arith_i64_ok chk 0) by (unfold in_i64; lia). cbn [obind].
      rewrite ?(arith_i32_ok chk 0) by (unfold in_i32; lia). cbn [obind].
      rewrite (as_i32_id y) by exact Hy. rewrite (arith_i32_ok chk (y + x * k)) by exact H2. cbn [obind].
      rewrite (arith_i32_ok chk ((y + x * k) * k)) by exact H3. reflexivity. }
    assert (S0 : s_dense_step chk 100 0 0 k [[]; [117]] dd dii 0 (ds0 [0; 0]) =
       do (m, acc) <- dense_meta chk k (at_z [[]; [117]]) dii 0 (ds0 [0; 0]) 1;
       let '(ts, cs, uid, sid) := acc in Ret (SNode (SN m [] (Some (0, 0))), DS 1 0 0 ts cs uid sid [0])) by reflexivity.
    assert (S1 : s_dense_step chk 100 0 0 k [[]; [117]] dd dii 1 (DS 1 0 0 (x * k) 0 0 0 [0]) =
       do (m, acc) <- dense_meta chk k (at_z [[]; [117]]) dii 1 (DS 1 0 0 (x * k) 0 0 0 [0]) 2;
       let '(ts, cs, uid, sid) := acc in Ret (SNode (SN m [] (Some (0, 0))), DS 2 0 0 ts cs uid sid [])) by reflexivity.
    rewrite M0 in S0. rewrite M1 in S1. cbn [obind] in S0, S1. rewrite S0. cbn [obind]. rewrite S1. cbn [obind]. reflexivity.
  - split; reflexivity.
Qed.

(** Dense nodes: every other date granularity (but 0) gives some node a wrong time.
    If it is not a whole number of seconds the rest is cut off; if it is, the scaled
    time of one node is taken for the raw time of the next. *)
Theorem C38_dense_timestamps_refuted : forall chk dg, in_i32 dg -> dg <> 1000 -> dg <> 0 ->
  exists b os d di i n, message b /\ date_gran_of b = dg /\
    s_decode_block chk (OF true true true) b = Ret os /\ a_decode_block chk b = Ret (map arc_of os) /\
    pb_groups b = [PGroup [] (Some d) [] [] []] /\ dn_info d = Some di /\ nth_error os i = Some (SNode n) /\
    ~ time_is dg (sum_to i (di_timestamp di)) (m_timestamp (sn_meta n)).
Proof.
  intros chk dg Hd Hn H0. pose proof (Z.quot_rem' dg 1000) as Hqr.
  assert (Hq : - 2^31 <= 1000 * Z.quot dg 1000 < 2^31).
  { unfold in_i32 in Hd. destruct (Z.lt_ge_cases dg 0) as [N|N].
    - pose proof (Z.rem_bound_pos_neg dg 1000 ltac:(lia) ltac:(lia)) as B. lia.
    - pose proof (Z.rem_bound_pos dg 1000 ltac:(lia) ltac:(lia)) as B. lia. }
  set (k := Z.quot dg 1000) in *. clearbody k.
  destruct (Z.eq_dec (Z.rem dg 1000) 0) as [R|R].
  - rewrite R, Z.add_0_r in Hqr. subst dg.
    destruct (two_nodes chk k 1 (1 - k)) as (n0 & n1 & E & _ & T); try (unfold in_i32; lia).
    exists (dense_block 100 (1000 * k) [1; 1] [0; 0] [0; 0] [1; 1 - k]). do 5 eexists.
    split; [|split; [|split; [exact E|split; [|split; [reflexivity|split; [reflexivity|split]]]]]].
    + apply message_dense; try exact Hd; repeat constructor; unfold in_i32, in_i64; lia.
    + reflexivity.
    + eapply arc_block; [exact E|reflexivity|reflexivity].
    + exact (eq_refl : nth_error [SNode n0; SNode n1] 1 = Some (SNode n1)).
    + cbn [di_timestamp]. rewrite T. intros (s & E1 & E2). injection E1 as <-. unfold sum_to in E2. cbn [firstn total fold_right] in E2.
      assert (k * (k - 1) = 0) by lia. assert (k = 0 \/ k = 1) as [->| ->] by (apply Z.mul_eq_0 in H; lia); lia.
  - pose proof (one_node chk 100 dg 1000) as E.
    assert (Ek : Z.quot dg 1000 = k). { apply (Z.mul_cancel_l _ _ 1000); [lia|]. pose proof (Z.quot_rem' dg 1000). lia. }
    rewrite Ek in E. specialize (E ltac:(unfold in_i32; lia) Hd ltac:(unfold in_i32; lia) ltac:(vm_compute; split; congruence) ltac:(unfold in_i32; lia)).
    exists (dense_block 100 dg [1] [1000] [0] [1000]). do 5 eexists.
    split; [|split; [|split; [exact E|split; [|split; [reflexivity|split; [reflexivity|split]]]]]].
    + apply message_dense; try exact Hd; repeat constructor; unfold in_i32, in_i64; lia.
    + reflexivity.
    + eapply arc_block; [exact E|reflexivity|reflexivity].
    + exact (eq_refl : nth_error [_] 0 = Some _).
    + cbn. intros (s & E1 & E2). injection E1 as <-. lia.
Qed.
Print Assumptions C38_dense_timestamps_refuted.
