(** C67-C69: converting PBF files to XML, concatenated files, and what readers do
    after the end. *)
From Coq Require Import String ZArith List Bool Lia Permutation.
From Coq Require Import ZifyBool ZifyNat.
From Verif Require Import Base Ints Utf8 Timestamp Obj ObjFacts SpecObj SpecIter PbMsg PbMsgFacts PbfRead SpecPbf SpecPbfRead
  PbfFacts PbfExact PbfEncode PbRange PbfSound PbfFrame PropsPbfFile PropsPbfBlock PropsPbfEdge PropsPbf
  Coord XmlWrite SpecXml SpecWriter XmlToken XmlWriteFacts XmlRead XmlReadBack SpecXmlRead PropsWriter PropsXml.
Import ListNotations.
Open Scope Z_scope.

(** ** C67 *)

(** What every object has that the String reader returns. *)
Definition pbf_object (o : sobj) : Prop :=
  in_range o /\ m_version (s_meta o) <> None /\ has_position o
  /\ exists t, m_timestamp (s_meta o) = Some (EpochNumber t).

Lemma asu32_range x y : asu32 x y -> in_u32 y.
Proof. now intros []. Qed.
Lemma as64_range c x y : as64 c x y -> in_i64 y.
Proof. now intros []. Qed.

Lemma nth_all {A} (P : A -> Prop) l : (forall i x, nth_error l i = Some x -> P x) -> Forall P l.
Proof.
  intros H. apply Forall_forall. intros x Hx. apply In_nth_error in Hx as (i & Hi). exact (H i x Hi).
Qed.

Lemma meta_read_object raw o m : meta_read raw o m -> in_i64 (m_id m) ->
  m_version m <> None /\ (exists t, m_timestamp m = Some (EpochNumber t)) /\
  opt_prop in_u32 (m_version m) /\ opt_prop in_u32 (m_changeset m) /\ opt_prop in_u32 (m_uid m).
Proof.
  intros (inf & v & ts & cs & uid & sid & x & y & z & u & _ & _ & Ev & Hv & _ & Et & _ & Ec & Hc & _ & Eu & Hu & _) _.
  rewrite Ev, Ec, Eu. cbn [opt_prop]. split; [discriminate|]. split; [now exists ts|].
  split; [exact (asu32_range _ _ Hv)|]. split; [exact (asu32_range _ _ Hc)|exact (asu32_range _ _ Hu)].
Qed.

Lemma dense_object chk b raw d di runs i n : dense_read chk b raw d di runs i n -> pbf_object (SNode n).
Proof.
  intros [Hi (la & lo & El & Hla & Hlo) _ (v & x & _ & Ev & Hv) (t & Et & _) (c & Ec & Hc) (u & Eu & Hu) _ _].
  split; [|split; [|split]]; cbn [s_meta has_position].
  - unfold in_range. cbn [s_meta]. rewrite Ev, Ec, Eu, El. cbn [opt_prop fst snd].
    split; [exact (as64_range _ _ _ Hi)|]. split; [exact (asu32_range _ _ Hv)|]. split; [exact (asu32_range _ _ Hc)|].
    split; [exact (asu32_range _ _ Hu)|]. split; [exact (proj1 (proj2 Hla))|exact (proj1 (proj2 Hlo))].
  - rewrite Ev. discriminate.
  - rewrite El. discriminate.
  - now exists t.
Qed.

Lemma way_object chk raw p o : ok_way p -> way_read chk raw p o -> pbf_object o.
Proof.
  intros Hp (w & -> & Hid & Hm & _ & _ & Hn).
  assert (Hi : in_i64 (m_id (sw_meta w))).
  { destruct Hp as (H & _). rewrite Hid in H. exact H. }
  destruct (meta_read_object _ _ _ Hm Hi) as (H1 & H2 & H3 & H4 & H5).
  split; [|split; [|split]]; cbn [s_meta has_position]; try assumption; [|exact I].
  unfold in_range. cbn [s_meta]. split; [exact Hi|]. split; [exact H3|]. split; [exact H4|]. split; [exact H5|].
  apply nth_all. intros i x Hx. exact (as64_range _ _ _ (Hn i x Hx)).
Qed.

Lemma rel_object chk raw p o : ok_rel p -> rel_read chk raw p o -> pbf_object o.
Proof.
  intros Hp (r & -> & Hid & Hm & _ & _ & Hn).
  assert (Hi : in_i64 (m_id (sr_meta r))).
  { destruct Hp as (H & _). rewrite Hid in H. exact H. }
  destruct (meta_read_object _ _ _ Hm Hi) as (H1 & H2 & H3 & H4 & H5).
  split; [|split; [|split]]; cbn [s_meta has_position]; try assumption; [|exact I].
  unfold in_range. cbn [s_meta]. split; [exact Hi|]. split; [exact H3|]. split; [exact H4|]. split; [exact H5|].
  apply nth_all. intros i m Hx. destruct (Hn i m Hx) as (_ & H & _). exact (as64_range _ _ _ H).
Qed.

Lemma blob_object rt chk infl flt b l : s_blob rt chk infl flt b = Ret l -> flt = OF true true true -> Forall pbf_object l.
Proof.
  intros H ->. unfold s_blob in H. destruct (s_blob_data infl b) as [[|x data]|]; [injection H as <-; constructor| |discriminate].
  cbn [obind] in H. destruct (parse_block rt (x :: data)) as [blk|] eqn:Eb; [|discriminate]. cbn [unwrap obind] in H.
  pose proof (block_range _ _ _ Eb) as (Ok & _).
  assert (E : exists raw, pb_strings blk = Some raw).
  { unfold s_decode_block in H. destruct (pb_strings blk) as [raw|]; [now exists raw|discriminate]. }
  destruct E as (raw & Er).
  assert (D : decodes rt chk blk raw l) by (split; [now exists (x :: data)|split; [exact Er|now left]]).
  destruct (decoded_groups _ _ _ _ _ D) as (ls & -> & F). apply Forall_concat. clear -F Ok.
  revert Ok. induction F as [|g l gs ls (H1 & H2 & H3) _ IH]; intros Ok; [constructor|]. inv Ok.
  match goal with H : ok_group g |- _ => destruct H as (_ & _ & Hw & Hr & _) end.
  constructor; [|now apply IH]. destruct (pg_dense g) as [d|] eqn:Ed.
  - destruct (H1 d eq_refl) as (_ & di & runs & _ & _ & _ & Hn). apply nth_all. intros i o Hi.
    destruct (Hn i o Hi) as (n & -> & R). exact (dense_object _ _ _ _ _ _ _ _ R).
  - destruct (pg_ways g) as [|w ws] eqn:Ew.
    + specialize (H3 eq_refl eq_refl). clear -H3 Hr. induction H3 as [|p o ps os R _ IH]; [constructor|]. inv Hr.
      constructor; [eapply rel_object; eassumption|now apply IH].
    + assert (F : Forall2 (way_read chk raw) (w :: ws) l) by (apply H2; [reflexivity|discriminate]).
      clear -F Hw. induction F as [|p o ps os R _ IH]; [constructor|]. inv Hw.
      constructor; [eapply way_object; eassumption|now apply IH].
Qed.

Lemma pbf_objects rt chk infl src os r : Runs (s_next rt chk infl) (s_new src) os r -> Forall pbf_object os.
Proof.
  intros H. apply s_next_runs_inv in H as (r' & H & _). cbn [s_new sr_filter sr_src sr_buf] in H.
  assert (C : forall bs ls, Forall2 (fun b l => s_blob rt chk infl (OF true true true) b = Ret l) bs ls -> Forall pbf_object (concat ls)).
  { intros bs ls F. induction F as [|b l bs ls E _ IH]; [constructor|]. cbn [concat]. apply Forall_app.
    split; [eapply blob_object; [exact E|reflexivity]|exact IH]. }
  apply buffered_inv in H as (bs & rb & _ & [(ls & F & -> & _)|(bs1 & b & bs2 & ls & _ & _ & F & -> & _)]); eapply C; exact F.
Qed.

Lemma writes_written os : written (map CWrite os) = os.
Proof. induction os as [|o os IH]; [reflexivity|]. cbn. f_equal. exact IH. Qed.

Lemma run_snoc f w cs c : run_calls f w (cs ++ [c]) =
  (fst (f (fst (run_calls f w cs)) c), snd (run_calls f w cs) ++ [snd (f (fst (run_calls f w cs)) c)]).
Proof.
  revert w. induction cs as [|d cs IH]; intros w; cbn [app run_calls].
  - cbn [fst snd app]. destruct (f w c). reflexivity.
  - destruct (f w d) as [w1 x]. rewrite IH. destruct (run_calls f w1 cs) as [w2 xs]. reflexivity.
Qed.
Lemma closed_writes os : closed (map CWrite os) = false.
Proof. induction os as [|o os IH]; [reflexivity|exact IH]. Qed.
Lemma results_ok f : (forall os o, m_version (s_meta o) <> None -> snd (f (fst (run_calls f (new_writer None) (map CWrite os))) (CWrite o)) = WOk tt) ->
  (forall os, snd (f (fst (run_calls f (new_writer None) (map CWrite os))) CClose) = WOk tt) ->
  forall os, Forall (fun o => m_version (s_meta o) <> None) os ->
  snd (run_calls f (new_writer None) (map CWrite os ++ [CClose])) = repeat (WOk tt) (S (length os)).
Proof.
  intros Hw Hc os Hv. rewrite run_snoc. cbn [snd]. rewrite Hc.
  assert (E : snd (run_calls f (new_writer None) (map CWrite os)) = repeat (WOk tt) (length os)).
  { induction os as [|o os IH] using rev_ind; [reflexivity|]. apply Forall_app in Hv as (H1 & H2). inv H2.
    rewrite map_app. cbn [map]. rewrite run_snoc. cbn [snd]. rewrite IH, Hw by assumption.
    rewrite app_length. cbn [length]. now rewrite repeat_app. }
  rewrite E. change (S (length os)) with (1 + length os)%nat. rewrite Nat.add_comm. now rewrite repeat_app.
Qed.

(** Whatever a PBF file's bytes are: everything the String reader returned, until the
    end or a panic, is accepted by both writers, and reading back the XML or OsmChange
    file gives the same objects in the same order with every field the same (the
    timestamp as its ISO text), then the end; equal, too, as == sees it, if the
    timestamps are from 1970 to 2038.  The texts must be ones that XML can carry. *)
Theorem C67_pbf_to_xml : forall rt chk inflate src os r,
  Runs (s_next rt chk inflate) (s_new src) os r ->
  forall attr_ws, normalises attr_ws -> Forall (texts_carried attr_ws) os ->
  forall ord, (forall l, Permutation (ord l) l) ->
  let xml := run_calls (xml_call ord) (new_writer None) (map CWrite os ++ [CClose]) in
  let osc := run_calls osc_call (new_writer None) (map CWrite os ++ [CClose]) in
  snd xml = repeat (WOk tt) (S (length os)) /\ snd osc = repeat (WOk tt) (S (length os)) /\
  exists os', Runs xml_next (xml_items attr_ws (out (fst xml))) os' (Ret []) /\
    Runs osc_next (xml_items attr_ws (out (fst osc))) os' (Ret []) /\
    Forall2 (fun o' o =>
      s_type o' = s_type o /\ s_tags o' = s_tags o /\ obj_nds o' = obj_nds o /\ obj_members o' = obj_members o
      /\ opt_map sn_latlon (into_node o') = opt_map sn_latlon (into_node o)
      /\ m_id (s_meta o') = m_id (s_meta o) /\ m_version (s_meta o') = m_version (s_meta o)
      /\ m_deleted (s_meta o') = m_deleted (s_meta o) /\ m_changeset (s_meta o') = m_changeset (s_meta o)
      /\ m_uid (s_meta o') = m_uid (s_meta o) /\ m_user (s_meta o') = m_user (s_meta o)
      /\ exists t, m_timestamp (s_meta o) = Some (EpochNumber t)
         /\ m_timestamp (s_meta o') = Some (ISOString (to_iso_string (EpochNumber t)))
         /\ (0 <= t < 2^31 -> s_eqb o' o = true)) os' os.
Proof.
  intros rt chk infl src os r H aw Hw Ht ord Hord. cbv zeta. pose proof (pbf_objects _ _ _ _ _ _ H) as Ho. clear H.
  assert (Hv : Forall (fun o => m_version (s_meta o) <> None) os).
  { eapply Forall_impl; [|exact Ho]. now intros o (_ & V & _). }
  assert (Hx : Forall (xml_object aw) os).
  { apply Forall_forall. intros o Hin. rewrite Forall_forall in Ho, Ht. destruct (Ho o Hin) as (R & V & P & t & E).
    split; [exact R|]. split; [exact V|]. split; [exact P|]. split; [exact (Ht o Hin)|]. rewrite E. exact I. }
  split; [|split].
  - apply results_ok; [| |exact Hv].
    + intros l o V. rewrite (proj1 (C23_xml_results ord (map CWrite l) (CWrite o))). rewrite closed_writes.
      unfold write_res. now destruct (m_version (s_meta o)).
    + intros l. exact (proj1 (C23_xml_results ord (map CWrite l) CClose)).
  - apply results_ok; [| |exact Hv].
    + intros l o V. rewrite (proj1 (C23_osc_results (map CWrite l) (CWrite o))). rewrite closed_writes.
      unfold write_res. now destruct (m_version (s_meta o)).
    + intros l. exact (proj1 (C23_osc_results (map CWrite l) CClose)).
  - exists (map as_read os). split; [|split].
    + assert (E : written (map CWrite os ++ [CClose]) = os) by (clear; induction os as [|o os IH]; [reflexivity|cbn; f_equal; exact IH]).
      rewrite <- E at 2. apply C27_roundtrip_partial; [exact Hw|exact Hord| |now rewrite E|].
      * clear. induction os as [|o os IH]; [reflexivity|exact IH].
      * clear. destruct os; constructor.
    + pose proof (C28_roundtrip aw Hw (map CWrite os)) as R. rewrite writes_written in R. exact (R Hx).
    + clear -Ho. induction Ho as [|o os (_ & _ & _ & t & E) _ IH]; [constructor|]. cbn [map]. constructor; [|exact IH].
      destruct (C27_as_read_equal o) as (A1 & A2 & A3 & A4 & A5 & A6 & A7 & A8 & A9 & A10 & A11 & _ & A12).
      repeat (split; [assumption|]). exists t. split; [exact E|]. split.
      * destruct o; cbn [as_read s_meta sn_meta sw_meta sr_meta meta_as_read m_timestamp] in *; rewrite E; reflexivity.
      * intros Hb. apply A12. rewrite E. exact Hb.
Qed.
Print Assumptions C67_pbf_to_xml.

Definition text_okb (s : str) : bool := forallb xml_char s.
Definition texts_okb (o : sobj) : bool :=
  match m_user (s_meta o) with Some u => text_okb u | None => true end
  && forallb (fun t => text_okb (fst t) && text_okb (snd t)) (s_tags o)
  && match o with SRel r => forallb (fun m => text_okb (snd m)) (sr_members r) | _ => true end.
Lemma text_okb_iff s : text_okb s = true -> carried (fun c => c) s.
Proof.
  unfold text_okb, carried. rewrite forallb_forall, Forall_forall. intros H c Hc. split; [exact (H c Hc)|reflexivity].
Qed.
Lemma texts_okb_iff o : texts_okb o = true -> texts_carried (fun c => c) o.
Proof.
  unfold texts_okb, texts_carried. intros H. apply andb_true_iff in H as (H & H3). apply andb_true_iff in H as (H1 & H2).
  split; [|split].
  - destruct (m_user (s_meta o)); [now apply text_okb_iff|exact I].
  - rewrite forallb_forall in H2. apply Forall_forall. intros t Ht. apply H2 in Ht. apply andb_true_iff in Ht as (A & B).
    split; now apply text_okb_iff.
  - destruct o; [exact I|exact I|]. rewrite forallb_forall in H3. apply Forall_forall. intros t Ht. apply H3 in Ht. now apply text_okb_iff.
Qed.
Example C67_example : exists os, Runs (s_next ex_rt (plain true) Some) (s_new ex_file) os (Ret (s_new [])) /\
  length os = 4%nat /\ Forall (texts_carried (fun c => c)) os.
Proof.
  eexists. split; [exact ex_file_runs|]. split; [reflexivity|].
  apply Forall_forall. intros o Ho. apply texts_okb_iff.
  match type of Ho with In o ?l => assert (G : forallb texts_okb l = true) by (vm_compute; reflexivity) end.
  rewrite forallb_forall in G. exact (G o Ho).
Qed.

(** ** C68 *)

Lemma concatenated {A} rt (decode : blob -> outcome (list A)) is src2 l1 r1 : Forall item_ok is ->
  Runs (buf_next rt decode) (file_bytes (map item_frame is), []) l1 r1 ->
  match r1 with
  | Ret _ => forall l2 r2, Runs (buf_next rt decode) (src2, []) l2 r2 ->
      Runs (buf_next rt decode) (file_bytes (map item_frame is) ++ src2, []) (l1 ++ l2) r2
  | Panic => Runs (buf_next rt decode) (file_bytes (map item_frame is) ++ src2, []) l1 Panic
  end.
Proof.
  intros Hi H. apply buffered_inv in H as (bs & rb & R & D).
  destruct (Runs_det _ _ _ _ R _ _ (C33_data_blobs_in_order rt is Hi)) as [Eb Er].
  assert (J : forall bs2 rb2, Runs (next_blob rt) src2 bs2 rb2 ->
    Runs (next_blob rt) (file_bytes (map item_frame is) ++ src2) (bs ++ bs2) rb2).
  { intros bs2 rb2 R2. apply runs_frames; [now apply items_frames|rewrite Eb; now apply item_blobs|exact R2]. }
  destruct D as [(ls & F & -> & ->)|(bs1 & b & bs2 & ls & -> & Hp & F & -> & ->)].
  - rewrite Er. intros l2 r2 H2. apply buffered_inv in H2 as (bs2 & rb2 & R2 & [(ls2 & F2 & -> & ->)|(bs3 & b & bs4 & ls2 & -> & Hp & F2 & -> & ->)]);
      apply J in R2; cbn [app]; rewrite <- concat_app.
    + exact (runs_buffered rt decode _ _ _ R2 (ls ++ ls2) [] (Forall2_app F F2)).
    + rewrite app_assoc in R2. exact (runs_buffered_panic rt decode _ _ _ _ _ R2 Hp (ls ++ ls2) [] (Forall2_app F F2)).
  - destruct (blobs_total rt (S (length src2)) src2) as (bs3 & rb3 & R3); [lia|]. apply J in R3.
    rewrite <- app_assoc in R3. cbn [app] in R3. exact (runs_buffered_panic rt decode _ _ _ _ _ R3 Hp ls [] F).
Qed.

(** [is] are the parts of the first file; the second is arbitrary. *)
Theorem C68_concatenated : forall rt chk inflate is src2, Forall item_ok is ->
  let src1 := file_bytes (map item_frame is) in
  (forall l1 s, Runs (s_next rt chk inflate) (s_new src1) l1 (Ret s) ->
     forall l2 r, Runs (s_next rt chk inflate) (s_new src2) l2 r ->
     Runs (s_next rt chk inflate) (s_new (src1 ++ src2)) (l1 ++ l2) r) /\
  (forall l1 s, Runs (a_next rt chk inflate) (src1, []) l1 (Ret s) ->
     forall l2 r, Runs (a_next rt chk inflate) (src2, []) l2 r ->
     Runs (a_next rt chk inflate) (src1 ++ src2, []) (l1 ++ l2) r) /\
  (forall l1 s, Runs (p_next rt chk inflate) (src1, []) l1 (Ret s) ->
     forall l2 r, Runs (p_next rt chk inflate) (src2, []) l2 r ->
     Runs (p_next rt chk inflate) (src1 ++ src2, []) (l1 ++ l2) r).
Proof.
  intros rt chk infl is src2 Hi. cbv zeta. split; [|split]; intros l1 s H1 l2 r H2.
  - apply s_next_runs_inv in H1 as (r1 & H1 & E1). apply s_next_runs_inv in H2 as (r2 & H2 & ->).
    cbn [s_new sr_filter sr_src sr_buf] in *. destruct r1 as [r1|]; [|discriminate].
    apply (s_next_runs rt chk infl (OF true true true)). exact (concatenated _ _ _ src2 _ _ Hi H1 _ _ H2).
  - apply a_next_runs_inv in H1 as (r1 & H1 & E1). apply a_next_runs_inv in H2 as (r2 & H2 & ->).
    destruct r1 as [r1|]; [|discriminate].
    apply (a_next_runs rt chk infl _ []). exact (concatenated _ _ _ src2 _ _ Hi H1 _ _ H2).
  - exact (concatenated _ _ _ src2 _ _ Hi H1 _ _ H2).
Qed.
Print Assumptions C68_concatenated.

(** If the first file cannot be read to its end, neither can the concatenation. *)
Theorem C68_first_bad : forall rt chk inflate is src2, Forall item_ok is ->
  let src1 := file_bytes (map item_frame is) in
  (forall l, Runs (s_next rt chk inflate) (s_new src1) l Panic -> Runs (s_next rt chk inflate) (s_new (src1 ++ src2)) l Panic) /\
  (forall l, Runs (a_next rt chk inflate) (src1, []) l Panic -> Runs (a_next rt chk inflate) (src1 ++ src2, []) l Panic) /\
  (forall l, Runs (p_next rt chk inflate) (src1, []) l Panic -> Runs (p_next rt chk inflate) (src1 ++ src2, []) l Panic).
Proof.
  intros rt chk infl is src2 Hi. cbv zeta. split; [|split]; intros l H1.
  - apply s_next_runs_inv in H1 as (r1 & H1 & E1). cbn [s_new sr_filter sr_src sr_buf] in *. destruct r1 as [r1|]; [discriminate|].
    apply (s_next_runs rt chk infl (OF true true true) _ _ _ Panic). exact (concatenated _ _ _ src2 _ _ Hi H1).
  - apply a_next_runs_inv in H1 as (r1 & H1 & E1). destruct r1 as [r1|]; [discriminate|].
    apply (a_next_runs rt chk infl _ [] _ Panic). exact (concatenated _ _ _ src2 _ _ Hi H1).
  - exact (concatenated _ _ _ src2 _ _ Hi H1).
Qed.
Print Assumptions C68_first_bad.
Example C68_example : exists is os, Forall item_ok is /\ file_bytes (map item_frame is) = ex_file /\ length os = 4%nat /\
  Runs (s_next ex_rt (plain true) Some) (s_new (ex_file ++ ex_file)) (os ++ os) (Ret (s_new [])).
Proof.
  destruct ex_file_items as (is & Hi & E & _). exists is. eexists. split; [exact Hi|]. split; [now symmetry|].
  split; [|rewrite E at 1; eapply (proj1 (C68_concatenated ex_rt (plain true) Some is ex_file Hi)); [rewrite <- E|]; exact ex_file_runs].
  reflexivity.
Qed.

(** ** C69 *)

(** What [n] calls in a row return, each starting where the one before left off. *)
Fixpoint calls {St A} (next : St -> outcome (option A * St)) (n : nat) (s : St) : outcome (list (option A)) :=
  match n with
  | O => Ret []
  | S n => do (o, s') <- next s; do os <- calls next n s'; Ret (o :: os)
  end.

Lemma fixed_calls {St A} (next : St -> outcome (option A * St)) s : next s = Ret (None, s) ->
  forall n, calls next n s = Ret (repeat None n).
Proof. intros H n. induction n as [|n IH]; [reflexivity|]. cbn [calls repeat]. rewrite H. cbn [obind]. now rewrite IH. Qed.

Lemma blob_end rt : forall f src r, next_blob_fuel rt f src = Ret (None, r) -> r = [].
Proof.
  induction f as [|f IH]; intros src r H; [discriminate|]. cbn [next_blob_fuel] in H.
  destruct (read_u32_be src) as [[n|] r0] eqn:E.
  - destruct (read_exact n r0) as [[hb r1]|]; [|discriminate]. cbn [obind] in H.
    destruct (parse_header rt hb) as [h|]; [|discriminate]. cbn [unwrap obind] in H.
    destruct (read_exact _ r1) as [[bb r2]|]; [|discriminate]. cbn [obind] in H.
    destruct (bh_type h) as [ty|]; [|discriminate]. cbn [unwrap obind] in H.
    destruct (negb (str_eqb ty (lit "OSMData"))); [exact (IH _ _ H)|]. destruct (parse_blob rt bb); discriminate.
  - injection H as <-. destruct src as [|a [|b [|c [|d src]]]]; cbn in E; try discriminate; now injection E as <-.
Qed.

Lemma buf_end {A} rt (decode : blob -> outcome (list A)) s s' : buf_next rt decode s = Ret (None, s') -> s' = ([], []).
Proof.
  destruct s as [src [|a l]]; [|unfold buf_next, next_buffered; cbn; discriminate].
  assert (H : forall n src, (length src < n)%nat -> buf_next rt decode (src, []) = Ret (None, s') -> s' = ([], [])).
  { induction n as [|n IH]; intros src0 Hn H; [lia|]. rewrite buf_next_eq in H.
    destruct (next_blob rt src0) as [[[b|] r]|] eqn:E; [| |discriminate]; cbn [obind] in H.
    - apply next_blob_rest in E. destruct (decode b) as [[|a l]|]; [| |discriminate]; cbn [obind] in H.
      + apply (IH r); [lia|exact H].
      + unfold buf_next, next_buffered in H. cbn in H. discriminate.
    - injection H as <-. apply blob_end in E. now subst. }
  apply (H (S (length src))). lia.
Qed.

Lemma p_end_again {A} rt (decode : blob -> outcome (list A)) : buf_next rt decode ([], []) = Ret (None, ([], [])).
Proof. reflexivity. Qed.

Lemma a_end rt chk infl s s' : a_next rt chk infl s = Ret (None, s') -> s' = ([], []).
Proof.
  destruct s as [src [|a l]]; intros H.
  - assert (R : Runs (a_next rt chk infl) (src, []) [] (Ret s')) by (now apply Runs_end).
    apply a_next_runs_inv in R as (r' & R & E). destruct r' as [p|]; [|discriminate]. injection E as ->.
    inversion R as [s0 s1 E1 E2 E3| |]; subst. apply buf_end in E1. now subst p.
  - unfold a_next in H. cbn [obind] in H. unfold pop in H. destruct (rev (a :: l)) as [|b r] eqn:E; [|discriminate].
    apply (f_equal (@rev _)) in E. rewrite rev_involutive in E. discriminate.
Qed.

(** PBF: in whatever state the reader is, after it has reported the end it does so for
    ever, also after nodes(), ways() or relations() have been called on it. *)
Theorem C69_pbf : forall rt chk inflate,
  (forall s s', s_next rt chk inflate s = Ret (None, s') ->
     forall flt n, calls (s_next rt chk inflate) n s' = Ret (repeat None n) /\
                   calls (s_next rt chk inflate) n (s_set_filter flt s') = Ret (repeat None n)) /\
  (forall s s', a_next rt chk inflate s = Ret (None, s') -> forall n, calls (a_next rt chk inflate) n s' = Ret (repeat None n)) /\
  (forall s s', p_next rt chk inflate s = Ret (None, s') -> forall n, calls (p_next rt chk inflate) n s' = Ret (repeat None n)).
Proof.
  intros rt chk infl. split; [|split]; intros s s' H.
  - intros flt n. assert (E : s' = SReader [] [] (sr_filter s)).
    { unfold s_next in H. destruct (next_buffered _ _ _ _) as [[o p]|] eqn:E; [|discriminate]. cbn [obind] in H.
      injection H as -> <-. apply (buf_end rt _ (sr_src s, sr_buf s)) in E. now subst p. }
    subst s'. split; apply fixed_calls; reflexivity.
  - apply a_end in H. subst. intros n. now apply fixed_calls.
  - apply (buf_end rt (p_blob rt chk infl)) in H. subst. intros n. now apply fixed_calls.
Qed.
Print Assumptions C69_pbf.
Example C69_example : exists s s', s_next ex_rt (plain true) Some s = Ret (None, s') /\ length (sr_src s) = 3%nat.
Proof. exists (s_new [1; 2; 3]). eexists. split; reflexivity. Qed.

Lemma runs_calls {St A} (next : St -> outcome (option A * St)) s l e : Runs next s l (Ret e) -> next e = Ret (None, e) ->
  forall n, calls next (length l + n) s = Ret (map Some l ++ repeat None n).
Proof.
  intros R He. remember (Ret e) as r eqn:Er. induction R as [s0 s1 H|s0 H|s0 x s1 l0 r H R IH]; intros n; [|discriminate|].
  - injection Er as ->. cbn [length map app Nat.add]. destruct n as [|n]; [reflexivity|]. cbn [calls repeat]. rewrite H. cbn [obind].
    now rewrite fixed_calls.
  - cbn [length map app Nat.add calls]. rewrite H. cbn [obind]. now rewrite (IH Er n).
Qed.

(** XML and OsmChange: on files whose elements are all complete. *)
Theorem C69_xml_partial : forall els post os, Forall good_element els -> Forall quiet post ->
  map element_object els = map Some os ->
  let items := map IEv (flat_map element_events els ++ post) in
  forall n, calls xml_next (length os + n) items = Ret (map Some os ++ repeat None n) /\
            calls osc_next (length os + n) items = Ret (map Some os ++ repeat None n).
Proof.
  intros els post os Hg Hq Ho. cbv zeta. intros n. destruct (C31_file els post os Hg Hq Ho) as (R1 & R2).
  split; [exact (runs_calls _ _ _ _ R1 eq_refl n)|exact (runs_calls _ _ _ _ R2 eq_refl n)].
Qed.
Print Assumptions C69_xml_partial.

(** But an element without an id makes the reader report the end, and later calls go on
    with the objects after it. *)
Theorem C69_xml_refuted : forall pre n a body els post os,
  Forall quiet pre -> In n (map lit ["node"; "way"; "relation"]%string) -> obj_content body ->
  Forall distinct_attrs (EStart n a :: body) -> attribute a "id" = None ->
  Forall good_element els -> Forall quiet post -> map element_object els = map Some os ->
  let items := map IEv (pre ++ EStart n a :: body ++ [EEnd n]) ++ map IEv (flat_map element_events els ++ post) in
  calls xml_next (S (length os)) items = Ret (None :: map Some os) /\
  calls osc_next (S (length os)) items = Ret (None :: map Some os).
Proof.
  intros pre n a body els post os Hp Hn Hb Hd Hi Hg Hq Ho. cbv zeta.
  destruct (C31_element pre n a body (map IEv (flat_map element_events els ++ post)) Hp Hn Hb Hd) as [E1 E2].
  assert (En : object_of n a body = None) by (unfold object_of; now rewrite Hi).
  rewrite En in E1, E2. destruct (C31_file els post os Hg Hq Ho) as (R1 & R2).
  pose proof (runs_calls _ _ _ _ R1 eq_refl 0) as G1. pose proof (runs_calls _ _ _ _ R2 eq_refl 0) as G2.
  cbn [repeat] in G1, G2. rewrite app_nil_r in G1, G2. rewrite Nat.add_0_r in G1, G2.
  split; cbn [calls]; [rewrite E1|rewrite E2]; cbn [obind]; [rewrite G1|rewrite G2]; reflexivity.
Qed.
Print Assumptions C69_xml_refuted.
Fixpoint nodupb (l : list str) : bool :=
  match l with [] => true | x :: r => negb (existsb (str_eqb x) r) && nodupb r end.
Lemma nodupb_ok l : nodupb l = true -> NoDup l.
Proof.
  induction l as [|x l IH]; intros H; [constructor|]. cbn [nodupb] in H. apply andb_true_iff in H as (H1 & H2).
  constructor; [|exact (IH H2)]. intros Hin. apply negb_true_iff in H1.
  assert (existsb (str_eqb x) l = true) by (apply existsb_exists; exists x; split; [exact Hin|apply str_eqb_refl]). congruence.
Qed.
Example C69_xml_example : let n a := Element [EOther [10]] (lit "node") a [] in
  let a := [(lit "lat", lit "1"); (lit "lon", lit "2")] in
  let els := [n ((lit "id", lit "1") :: a)] in
  Forall good_element els /\ Forall distinct_attrs [EStart (lit "node") a] /\
  exists os, map element_object els = map Some os /\
    calls xml_next 3 (map IEv (element_events (n a) ++ flat_map element_events els)) = Ret [None; nth_error os 0; None].
Proof.
  cbv zeta. assert (N : forall l : list (str * str), nodupb (map fst l) = true -> NoDup (map fst l)) by (intros l; apply nodupb_ok).
  split; [|split].
  - constructor; [|constructor]. split; [repeat constructor|]. split; [now left|]. split; [constructor|].
    constructor; [|constructor]. apply N. vm_compute. reflexivity.
  - constructor; [|constructor]. apply N. vm_compute. reflexivity.
  - eexists [_]. split; vm_compute; reflexivity.
Qed.

(** ** C61: what holds *)

(** In any state of the reader: what is still buffered comes out whatever its kind, then
    the objects of the kinds asked for, as from a new reader on the rest of the file
    (see C40). *)
Theorem C61_rest_partial : forall rt chk inflate s flt os r,
  Runs (s_next rt chk inflate) (s_set_filter flt s) os r ->
  exists os', os = sr_buf s ++ os' /\ Forall (fun o => of_kind flt o = true) os' /\
    Runs (s_next rt chk inflate) (s_set_filter flt (s_new (sr_src s))) os' r.
Proof.
  intros rt chk infl s flt os r H.
  assert (G : exists os', os = sr_buf s ++ os' /\ Runs (s_next rt chk infl) (s_set_filter flt (s_new (sr_src s))) os' r).
  { apply s_next_runs_inv in H as (r' & H & ->). cbn [s_set_filter s_new sr_filter sr_src sr_buf] in *.
    apply buffered_inv in H as (bs & rb & R & [(ls & F & -> & ->)|(bs1 & b & bs2 & ls & -> & Hp & F & -> & ->)]).
    - exists (concat ls). split; [reflexivity|]. apply (s_next_runs rt chk infl flt _ [] (concat ls)).
      exact (runs_buffered rt _ _ _ _ R ls [] F).
    - exists (concat ls). split; [reflexivity|]. apply (s_next_runs rt chk infl flt _ [] (concat ls) Panic).
      exact (runs_buffered_panic rt _ _ _ _ _ _ R Hp ls [] F). }
  destruct G as (os' & -> & R). exists os'. split; [reflexivity|]. split; [|exact R]. eapply filtered_kind. exact R.
Qed.
Print Assumptions C61_rest_partial.
(** After the first of two nodes of a file. *)
Example C61_rest_example : exists s1 n os r, s_next ex_rt (plain true) Some (s_new ex_file) = Ret (Some n, s1) /\
  length (sr_buf s1) = 1%nat /\ Runs (s_next ex_rt (plain true) Some) (s_set_filter only_ways s1) os r.
Proof.
  assert (T : forall s, exists os r, Runs (s_next ex_rt (plain true) Some) s os r).
  { intros [src buf flt]. destruct (buffered_total ex_rt (s_blob ex_rt (plain true) Some flt) src buf) as (os & r & R).
    eexists os, _. apply s_next_runs. exact R. }
  assert (L : match s_next ex_rt (plain true) Some (s_new ex_file) with Ret (Some _, s1) => length (sr_buf s1) = 1%nat | _ => False end)
    by (vm_compute; reflexivity).
  destruct (s_next ex_rt (plain true) Some (s_new ex_file)) as [[[n|] s1]|]; try contradiction.
  destruct (T (s_set_filter only_ways s1)) as (os & r & R2). exists s1, n, os, r. split; [reflexivity|]. split; [exact L|exact R2].
Qed.
