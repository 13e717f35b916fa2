(** Messages survive serialisation and parsing. *)
From Coq Require Import String ZArith List Bool Lia.
From Verif Require Import Base Utf8 PbWire PbMsg.
Import ListNotations.
Open Scope Z_scope.

(** ** Value ranges of the message types (specification) *)

Definition opt_all {A} (P : A -> Prop) (o : option A) : Prop :=
  match o with Some v => P v | None => True end.

Definition ok_header (m : blob_header) : Prop :=
  opt_all valid_str (bh_type m) /\ opt_all in_i32 (bh_datasize m).
Definition ok_blob (m : blob) : Prop := opt_all in_i32 (bl_raw_size m).
Definition ok_info (m : info) : Prop :=
  opt_all in_i32 (i_version m) /\ opt_all in_i64 (i_timestamp m) /\
  opt_all in_i64 (i_changeset m) /\ opt_all in_i32 (i_uid m) /\ opt_all in_u32 (i_user_sid m).
Definition ok_dense_info (m : dense_info) : Prop :=
  Forall in_i32 (di_version m) /\ Forall in_i64 (di_timestamp m) /\
  Forall in_i64 (di_changeset m) /\ Forall in_i32 (di_uid m) /\ Forall in_i32 (di_user_sid m).
Definition ok_change_set (m : change_set) : Prop := opt_all in_i64 m.
Definition ok_node (m : pnode) : Prop :=
  opt_all in_i64 (pn_id m) /\ Forall in_u32 (pn_keys m) /\ Forall in_u32 (pn_vals m) /\
  opt_all ok_info (pn_info m) /\ opt_all in_i64 (pn_lat m) /\ opt_all in_i64 (pn_lon m).
Definition ok_dense (m : dense_nodes) : Prop :=
  Forall in_i64 (dn_id m) /\ opt_all ok_dense_info (dn_info m) /\
  Forall in_i64 (dn_lat m) /\ Forall in_i64 (dn_lon m) /\ Forall in_i32 (dn_keys_vals m).
Definition ok_way (m : pway) : Prop :=
  opt_all in_i64 (pw_id m) /\ Forall in_u32 (pw_keys m) /\ Forall in_u32 (pw_vals m) /\
  opt_all ok_info (pw_info m) /\ Forall in_i64 (pw_refs m).
Definition ok_rel (m : prel) : Prop :=
  opt_all in_i64 (pr_id m) /\ Forall in_u32 (pr_keys m) /\ Forall in_u32 (pr_vals m) /\
  opt_all ok_info (pr_info m) /\ Forall in_i32 (pr_roles m) /\ Forall in_i64 (pr_memids m) /\
  Forall in_i32 (pr_types m).
Definition ok_group (m : pgroup) : Prop :=
  Forall ok_node (pg_nodes m) /\ opt_all ok_dense (pg_dense m) /\ Forall ok_way (pg_ways m) /\
  Forall ok_rel (pg_rels m) /\ Forall ok_change_set (pg_changesets m).
Definition ok_block (m : pblock) : Prop :=
  Forall ok_group (pb_groups m) /\ opt_all in_i32 (pb_granularity m) /\
  opt_all in_i64 (pb_lat_offset m) /\ opt_all in_i64 (pb_lon_offset m) /\
  opt_all in_i32 (pb_date_granularity m).

(** The serialised form fits the format's 32-bit sizes. *)
Definition fits (fs : list field) : Prop := Z.of_nat (length (ser fs)) < 2^32.

(** ** Building blocks *)

(** A field whose tag and varint are in range; lengths are left to [fits]. *)
Definition pre_field (f : field) : Prop :=
  8 <= fst f < 2^32 /\ fst f mod 8 = wire_of (snd f) /\
  match snd f with WVar v => in_u64 v | WLen _ => True | _ => False end.

Lemma pre_wf fs : Forall pre_field fs -> fits fs -> Forall wf_field fs.
Proof.
  intros H Hf. rewrite Forall_forall in *. intros [t w] Hin. specialize (H _ Hin).
  destruct H as (H1 & H2 & H3). repeat split; try apply H1; try assumption.
  cbn [fst snd] in *. destruct w; try easy. cbn. apply payload_len in Hin. unfold fits in Hf. lia.
Qed.

Lemma fits_app a b : fits (a ++ b) -> fits a /\ fits b.
Proof. unfold fits. rewrite ser_app, app_length. lia. Qed.

Lemma fits_payload {A} t (sf : A -> list field) v fs : fits fs -> In (t, WLen (ser (sf v))) fs -> fits (sf v).
Proof. intros H Hin. apply payload_len in Hin. unfold fits in *. lia. Qed.

Definition num (n : Z) : Prop := 1 <= n < 2^29.

Lemma pre_var {A} n (enc : A -> Z) o : num n -> opt_all (fun v => in_u64 (enc v)) o ->
  Forall pre_field (f_var n enc o).
Proof.
  intros Hn H. destruct o; constructor; [|constructor]. unfold num in Hn.
  split; [cbn; lia|]. split; [|exact H].
  cbn [fst snd wire_of]. rewrite Z.mul_comm. apply Z.mod_mul. lia.
Qed.
Lemma pre_tag2 n (b : bytes) : num n -> pre_field (8 * n + 2, WLen b).
Proof.
  unfold num. intros H. split; [cbn; lia|]. split; [|easy]. cbn [fst snd wire_of].
  Z.div_mod_to_equations; lia.
Qed.
Lemma pre_len {A} n (enc : A -> bytes) o : num n -> Forall pre_field (f_len n enc o).
Proof. intros H. destruct o; constructor; [|constructor]. now apply pre_tag2. Qed.
Lemma pre_rep {A} n (enc : A -> bytes) l : num n -> Forall pre_field (f_rep n enc l).
Proof.
  intros H. unfold f_rep. rewrite Forall_map. apply Forall_forall. intros. now apply pre_tag2.
Qed.
Lemma pre_packed {A} n (enc : A -> Z) l : num n -> Forall pre_field (f_packed n enc l).
Proof. intros H. destruct l; constructor; [|constructor]. now apply pre_tag2. Qed.

Lemma u64_of_u32 v : in_u32 v -> in_u64 (enc_u32 v).
Proof. unfold in_u32, in_u64, enc_u32. lia. Qed.
Lemma u64_of_i64 v : in_u64 (enc_i64 v).
Proof. apply as_u64_range. Qed.
Lemma u64_of_i32 v : in_u64 (enc_i32 v).
Proof. apply as_u64_range. Qed.
Lemma u64_of_s64 v : in_i64 v -> in_u64 (enc_s64 v).
Proof. apply zigzag_i64. Qed.
Lemma u64_of_s32 v : in_i32 v -> in_u64 (enc_s32 v).
Proof. intros H. apply zigzag_i32 in H. unfold in_u32, in_u64, enc_s32 in *. lia. Qed.
Lemma u64_of_bool b : in_u64 (enc_bool b).
Proof. destruct b; unfold in_u64; cbn; lia. Qed.

Lemma opt_all_impl {A} (P Q : A -> Prop) o : (forall v, P v -> Q v) -> opt_all P o -> opt_all Q o.
Proof. destruct o; cbn; auto. Qed.
Lemma opt_all_any {A} (P : A -> Prop) o : (forall v, P v) -> opt_all P o.
Proof. destruct o; cbn; auto. Qed.

(** Folding over a building block. *)
Lemma fold_var {M A} (step : M -> field -> option M) n (enc : A -> Z) o m m' :
  match o with Some v => step m (8 * n, WVar (enc v)) = Some m' | None => m = m' end ->
  fold_opt step m (f_var n enc o) = Some m'.
Proof. destruct o; cbn [f_var fold_opt]; intros H; [|now subst]. now rewrite H. Qed.
Lemma fold_len {M A} (step : M -> field -> option M) n (enc : A -> bytes) o m m' :
  match o with Some v => step m (8 * n + 2, WLen (enc v)) = Some m' | None => m = m' end ->
  fold_opt step m (f_len n enc o) = Some m'.
Proof. destruct o; cbn [f_len fold_opt]; intros H; [|now subst]. now rewrite H. Qed.
Lemma fold_packed {M A} (step : M -> field -> option M) n (enc : A -> Z) l m m' :
  (l = [] -> m = m') ->
  step m (8 * n + 2, WLen (flat_map (fun v => varint (enc v)) l)) = Some m' ->
  fold_opt step m (f_packed n enc l) = Some m'.
Proof.
  intros H0 H1. destruct l as [|v l].
  - cbn. f_equal. now apply H0.
  - cbn [f_packed fold_opt]. now rewrite H1.
Qed.
Lemma fold_seq {M} (step : M -> field -> option M) a b m m1 m2 :
  fold_opt step m a = Some m1 -> fold_opt step m1 b = Some m2 -> fold_opt step m (a ++ b) = Some m2.
Proof. intros H1 H2. now rewrite fold_opt_app, H1. Qed.

Lemma packed_u32 rt l : Forall in_u32 l -> packed rt dec_u32 (flat_map (fun v => varint (enc_u32 v)) l) = Some l.
Proof. intros H. apply packed_ok. eapply Forall_impl; [|exact H]. intros v Hv. split; [now apply u64_of_u32|now apply u32_ok]. Qed.
Lemma packed_i32 rt l : Forall in_i32 l -> packed rt dec_i32 (flat_map (fun v => varint (enc_i32 v)) l) = Some l.
Proof. intros H. apply packed_ok. eapply Forall_impl; [|exact H]. intros v Hv. split; [now apply u64_of_i32|now apply i32_ok]. Qed.
Lemma packed_s64 rt l : Forall in_i64 l -> packed rt dec_s64 (flat_map (fun v => varint (enc_s64 v)) l) = Some l.
Proof. intros H. apply packed_ok. eapply Forall_impl; [|exact H]. intros v Hv. split; [now apply u64_of_s64|now apply s64_ok]. Qed.
Lemma packed_s32 rt l : Forall in_i32 l -> packed rt dec_s32 (flat_map (fun v => varint (enc_s32 v)) l) = Some l.
Proof. intros H. apply packed_ok. eapply Forall_impl; [|exact H]. intros v Hv. split; [now apply u64_of_s32|now apply s32_ok]. Qed.
Lemma packed_bool rt l : packed rt dec_bool (flat_map (fun v => varint (enc_bool v)) l) = Some l.
Proof. apply packed_ok. apply Forall_forall. intros v Hv. split; [apply u64_of_bool|apply bool_ok]. Qed.

(** ** The messages *)

Ltac pre :=
  repeat (apply Forall_app; split);
  first [ apply pre_len | apply pre_rep | apply pre_packed | apply pre_var ];
  try (unfold num; lia);
  first [ eapply opt_all_impl; [|eassumption];
          intros ?; first [apply u64_of_u32 | apply u64_of_s64 | apply u64_of_s32 ]
        | apply opt_all_any; first [ apply u64_of_i64 | apply u64_of_i32 | apply u64_of_bool ] ].

Lemma header_rt rt m : ok_header m -> fits (bh_fields m) -> merge rt (bh_step rt) bh0 (ser (bh_fields m)) = Some m.
Proof.
  intros (Ht & Hd) Hf. rewrite merge_ser.
  2: { apply pre_wf; [|exact Hf]. unfold bh_fields. pre. }
  destruct m as [t i d]. cbn [bh_type bh_index bh_datasize] in *. unfold bh_fields; cbn [bh_type bh_index bh_datasize].
  eapply fold_seq; [eapply fold_len with (m' := BlobHeader t None None)|].
  { destruct t; [|easy]. cbn. now rewrite utf8_decode_encode. }
  eapply fold_seq; [eapply fold_len with (m' := BlobHeader t i None)|].
  { now destruct i. }
  eapply fold_var. destruct d; [|easy]. cbn -[dec_i32]. now rewrite i32_ok.
Qed.

Lemma blob_rt rt m : ok_blob m -> fits (bl_fields m) -> parse_blob rt (ser_blob m) = Some m.
Proof.
  intros Hs Hf. unfold parse_blob, ser_blob. rewrite merge_ser.
  2: { apply pre_wf; [|exact Hf]. unfold bl_fields. pre. }
  destruct m as [a b c d e]. unfold ok_blob in Hs. cbn in Hs.
  unfold bl_fields; cbn [bl_raw bl_raw_size bl_zlib bl_lzma bl_bzip2].
  eapply fold_seq; [eapply fold_len with (m' := Blob a None None None None); now destruct a|].
  eapply fold_seq; [eapply fold_var with (m' := Blob a b None None None)|].
  { destruct b; [|easy]. cbn -[dec_i32]. now rewrite i32_ok. }
  eapply fold_seq; [eapply fold_len with (m' := Blob a b c None None); now destruct c|].
  eapply fold_seq; [eapply fold_len with (m' := Blob a b c d None); now destruct d|].
  eapply fold_len. now destruct e.
Qed.

Lemma info_rt rt m : ok_info m -> fits (info_fields m) -> merge rt (info_step rt) info0 (ser (info_fields m)) = Some m.
Proof.
  intros (H1 & H2 & H3 & H4 & H5) Hf. rewrite merge_ser.
  2: { apply pre_wf; [|exact Hf]. unfold info_fields. pre. }
  destruct m as [a b c d e f]. cbn in H1, H2, H3, H4, H5.
  unfold info_fields; cbn [i_version i_timestamp i_changeset i_uid i_user_sid i_visible].
  eapply fold_seq; [eapply fold_var with (m' := Info a None None None None None)|].
  { destruct a; [|easy]. cbn -[dec_i32]. now rewrite i32_ok. }
  eapply fold_seq; [eapply fold_var with (m' := Info a b None None None None)|].
  { destruct b; [|easy]. cbn -[dec_i64]. now rewrite i64_ok. }
  eapply fold_seq; [eapply fold_var with (m' := Info a b c None None None)|].
  { destruct c; [|easy]. cbn -[dec_i64]. now rewrite i64_ok. }
  eapply fold_seq; [eapply fold_var with (m' := Info a b c d None None)|].
  { destruct d; [|easy]. cbn -[dec_i32]. now rewrite i32_ok. }
  eapply fold_seq; [eapply fold_var with (m' := Info a b c d e None)|].
  { destruct e; [|easy]. cbn -[dec_u32 enc_u32]. now rewrite u32_ok. }
  eapply fold_var. destruct f; [|easy]. cbn -[dec_bool]. now rewrite bool_ok.
Qed.

Ltac pk lem :=
  cbn -[packed]; rewrite lem by assumption; cbn [opt_map]; rewrite ?app_nil_l; reflexivity.

Lemma di_rt rt m : ok_dense_info m -> fits (di_fields m) -> merge rt (di_step rt) di0 (ser (di_fields m)) = Some m.
Proof.
  intros (H1 & H2 & H3 & H4 & H5) Hf. rewrite merge_ser.
  2: { apply pre_wf; [|exact Hf]. unfold di_fields. pre. }
  destruct m as [a b c d e f]. cbn in H1, H2, H3, H4, H5.
  unfold di_fields; cbn [di_version di_timestamp di_changeset di_uid di_user_sid di_visible].
  eapply fold_seq; [eapply fold_packed with (m' := DenseInfo a [] [] [] [] []); [now intros ->|pk packed_i32]|].
  eapply fold_seq; [eapply fold_packed with (m' := DenseInfo a b [] [] [] []); [now intros ->|pk packed_s64]|].
  eapply fold_seq; [eapply fold_packed with (m' := DenseInfo a b c [] [] []); [now intros ->|pk packed_s64]|].
  eapply fold_seq; [eapply fold_packed with (m' := DenseInfo a b c d [] []); [now intros ->|pk packed_s32]|].
  eapply fold_seq; [eapply fold_packed with (m' := DenseInfo a b c d e []); [now intros ->|pk packed_s32]|].
  eapply fold_packed; [now intros ->|]. cbn -[packed]. now rewrite packed_bool.
Qed.

Lemma cs_rt rt m : ok_change_set m -> fits (cs_fields m) -> merge rt (cs_step rt) None (ser (cs_fields m)) = Some m.
Proof.
  intros H Hf. unfold ok_change_set in H. rewrite merge_ser.
  2: { apply pre_wf; [|exact Hf]. unfold cs_fields. pre. }
  eapply fold_var. destruct m; [|easy]. cbn -[dec_i64]. now rewrite i64_ok.
Qed.

Lemma node_rt rt m : ok_node m -> fits (pn_fields m) -> merge rt (pn_step rt) pn0 (ser (pn_fields m)) = Some m.
Proof.
  intros (H1 & H2 & H3 & H4 & H5 & H6) Hf. rewrite merge_ser.
  2: { apply pre_wf; [|exact Hf]. unfold pn_fields. pre. }
  destruct m as [a b c d e f]. cbn in H1, H2, H3, H4, H5, H6.
  unfold pn_fields in *; cbn [pn_id pn_keys pn_vals pn_info pn_lat pn_lon] in *.
  eapply fold_seq; [eapply fold_var with (m' := PNode a [] [] None None None)|].
  { destruct a; [|easy]. cbn -[dec_s64]. now rewrite s64_ok. }
  eapply fold_seq; [eapply fold_packed with (m' := PNode a b [] None None None); [now intros ->|pk packed_u32]|].
  eapply fold_seq; [eapply fold_packed with (m' := PNode a b c None None None); [now intros ->|pk packed_u32]|].
  eapply fold_seq; [eapply fold_len with (m' := PNode a b c d None None)|].
  { destruct d as [i|]; [|easy]. cbn -[merge_opt]. unfold merge_opt. cbn [unwrap_or].
    rewrite info_rt; [easy|easy|].
    eapply (fits_payload _ info_fields); [exact Hf|]. rewrite !in_app_iff. right. right. right. left. cbn. now left. }
  eapply fold_seq; [eapply fold_var with (m' := PNode a b c d e None)|].
  { destruct e; [|easy]. cbn -[dec_s64]. now rewrite s64_ok. }
  eapply fold_var. destruct f; [|easy]. cbn -[dec_s64]. now rewrite s64_ok.
Qed.

Lemma dense_rt rt m : ok_dense m -> fits (dn_fields m) -> merge rt (dn_step rt) dn0 (ser (dn_fields m)) = Some m.
Proof.
  intros (H1 & H2 & H3 & H4 & H5) Hf. rewrite merge_ser.
  2: { apply pre_wf; [|exact Hf]. unfold dn_fields. pre. }
  destruct m as [a b c d e]. cbn in H1, H2, H3, H4, H5.
  unfold dn_fields in *; cbn [dn_id dn_info dn_lat dn_lon dn_keys_vals] in *.
  eapply fold_seq; [eapply fold_packed with (m' := DenseNodes a None [] [] []); [now intros ->|pk packed_s64]|].
  eapply fold_seq; [eapply fold_len with (m' := DenseNodes a b [] [] [])|].
  { destruct b as [i|]; [|easy]. cbn -[merge_opt]. unfold merge_opt. cbn [unwrap_or].
    rewrite di_rt; [easy|easy|].
    eapply (fits_payload _ di_fields); [exact Hf|]. rewrite !in_app_iff. right. left. cbn. now left. }
  eapply fold_seq; [eapply fold_packed with (m' := DenseNodes a b c [] []); [now intros ->|pk packed_s64]|].
  eapply fold_seq; [eapply fold_packed with (m' := DenseNodes a b c d []); [now intros ->|pk packed_s64]|].
  eapply fold_packed; [now intros ->|pk packed_i32].
Qed.

Lemma way_rt rt m : ok_way m -> fits (pw_fields m) -> merge rt (pw_step rt) pw0 (ser (pw_fields m)) = Some m.
Proof.
  intros (H1 & H2 & H3 & H4 & H5) Hf. rewrite merge_ser.
  2: { apply pre_wf; [|exact Hf]. unfold pw_fields. pre. }
  destruct m as [a b c d e]. cbn in H1, H2, H3, H4, H5.
  unfold pw_fields in *; cbn [pw_id pw_keys pw_vals pw_info pw_refs] in *.
  eapply fold_seq; [eapply fold_var with (m' := PWay a [] [] None [])|].
  { destruct a; [|easy]. cbn -[dec_i64]. now rewrite i64_ok. }
  eapply fold_seq; [eapply fold_packed with (m' := PWay a b [] None []); [now intros ->|pk packed_u32]|].
  eapply fold_seq; [eapply fold_packed with (m' := PWay a b c None []); [now intros ->|pk packed_u32]|].
  eapply fold_seq; [eapply fold_len with (m' := PWay a b c d [])|].
  { destruct d as [i|]; [|easy]. cbn -[merge_opt]. unfold merge_opt. cbn [unwrap_or].
    rewrite info_rt; [easy|easy|].
    eapply (fits_payload _ info_fields); [exact Hf|]. rewrite !in_app_iff. right. right. right. left. cbn. now left. }
  eapply fold_packed; [now intros ->|pk packed_s64].
Qed.

Lemma rel_rt rt m : ok_rel m -> fits (pr_fields m) -> merge rt (pr_step rt) pr0 (ser (pr_fields m)) = Some m.
Proof.
  intros (H1 & H2 & H3 & H4 & H5 & H6 & H7) Hf. rewrite merge_ser.
  2: { apply pre_wf; [|exact Hf]. unfold pr_fields. pre. }
  destruct m as [a b c d e f g]. cbn in H1, H2, H3, H4, H5, H6, H7.
  unfold pr_fields in *; cbn [pr_id pr_keys pr_vals pr_info pr_roles pr_memids pr_types] in *.
  eapply fold_seq; [eapply fold_var with (m' := PRel a [] [] None [] [] [])|].
  { destruct a; [|easy]. cbn -[dec_i64]. now rewrite i64_ok. }
  eapply fold_seq; [eapply fold_packed with (m' := PRel a b [] None [] [] []); [now intros ->|pk packed_u32]|].
  eapply fold_seq; [eapply fold_packed with (m' := PRel a b c None [] [] []); [now intros ->|pk packed_u32]|].
  eapply fold_seq; [eapply fold_len with (m' := PRel a b c d [] [] [])|].
  { destruct d as [i|]; [|easy]. cbn -[merge_opt]. unfold merge_opt. cbn [unwrap_or].
    rewrite info_rt; [easy|easy|].
    eapply (fits_payload _ info_fields); [exact Hf|]. rewrite !in_app_iff. right. right. right. left. cbn. now left. }
  eapply fold_seq; [eapply fold_packed with (m' := PRel a b c d e [] []); [now intros ->|pk packed_i32]|].
  eapply fold_seq; [eapply fold_packed with (m' := PRel a b c d e f []); [now intros ->|pk packed_s64]|].
  eapply fold_packed; [now intros ->|pk packed_i32].
Qed.

(** Repeated fields. *)
Lemma fold_rep {M A} (step : M -> field -> option M) n (enc : A -> bytes) (put : list A -> M) l :
  (forall done v, In v l -> step (put done) (8 * n + 2, WLen (enc v)) = Some (put (done ++ [v]))) ->
  forall done, fold_opt step (put done) (f_rep n enc l) = Some (put (done ++ l)).
Proof.
  induction l as [|v l IH]; intros H done; cbn [f_rep map fold_opt].
  - now rewrite app_nil_r.
  - rewrite H by now left. cbn [opt_bind]. fold (f_rep n enc l). rewrite IH.
    + now rewrite <- app_assoc.
    + intros d w Hw. apply H. now right.
Qed.

Lemma in_f_rep {A} n (enc : A -> bytes) l v : In v l -> In (8 * n + 2, WLen (enc v)) (f_rep n enc l).
Proof. intros H. unfold f_rep. apply in_map_iff. now exists v. Qed.

Lemma strings_rt rt m : fits (st_fields m) -> merge rt (st_step rt) [] (ser (st_fields m)) = Some m.
Proof.
  intros Hf. rewrite merge_ser.
  2: { apply pre_wf; [|exact Hf]. apply pre_rep. unfold num. lia. }
  change m with ([] ++ m) at 2. apply (fold_rep (st_step rt) 1 (fun b => b) (fun l => l)). easy.
Qed.

Lemma group_rt rt m : ok_group m -> fits (pg_fields m) -> merge rt (pg_step rt) pg0 (ser (pg_fields m)) = Some m.
Proof.
  intros (H1 & H2 & H3 & H4 & H5) Hf. rewrite merge_ser.
  2: { apply pre_wf; [|exact Hf]. unfold pg_fields. pre. }
  destruct m as [a b c d e]. cbn in H1, H2, H3, H4, H5.
  unfold pg_fields in *; cbn [pg_nodes pg_dense pg_ways pg_rels pg_changesets] in *.
  rewrite Forall_forall in H1, H3, H4, H5.
  assert (Hp : forall A (sf : A -> list field) v n,
    In (8 * n + 2, WLen (ser (sf v))) (f_rep 1 (fun n => ser (pn_fields n)) a ++
    f_len 2 (fun d => ser (dn_fields d)) b ++ f_rep 3 (fun w => ser (pw_fields w)) c ++
    f_rep 4 (fun r => ser (pr_fields r)) d ++ f_rep 5 (fun c => ser (cs_fields c)) e) -> fits (sf v)).
  { intros A sf v n. apply (fits_payload _ sf). exact Hf. }
  eapply fold_seq.
  { apply (fold_rep (pg_step rt) 1 (fun n => ser (pn_fields n)) (fun l => PGroup l None [] [] [])) with (done := []).
    intros done v Hv. cbn -[merge]. rewrite node_rt; [easy|now apply H1|].
    apply (Hp _ pn_fields v 1). rewrite in_app_iff. left. now apply (in_f_rep 1 (fun n => ser (pn_fields n))). }
  cbn [app]. eapply fold_seq; [eapply fold_len with (m' := PGroup a b [] [] [])|].
  { destruct b as [x|]; [|easy]. cbn -[merge_opt]. unfold merge_opt. cbn [unwrap_or].
    rewrite dense_rt; [easy|easy|]. apply (Hp _ dn_fields x 2). rewrite !in_app_iff. right. left. cbn. now left. }
  eapply fold_seq.
  { apply (fold_rep (pg_step rt) 3 (fun n => ser (pw_fields n)) (fun l => PGroup a b l [] [])) with (done := []).
    intros done v Hv. cbn -[merge]. rewrite way_rt; [easy|now apply H3|].
    apply (Hp _ pw_fields v 3). rewrite !in_app_iff. do 2 right. left. now apply (in_f_rep 3 (fun n => ser (pw_fields n))). }
  cbn [app]. eapply fold_seq.
  { apply (fold_rep (pg_step rt) 4 (fun n => ser (pr_fields n)) (fun l => PGroup a b c l [])) with (done := []).
    intros done v Hv. cbn -[merge]. rewrite rel_rt; [easy|now apply H4|].
    apply (Hp _ pr_fields v 4). rewrite !in_app_iff. do 3 right. left. now apply (in_f_rep 4 (fun n => ser (pr_fields n))). }
  cbn [app].
  apply (fold_rep (pg_step rt) 5 (fun n => ser (cs_fields n)) (fun l => PGroup a b c d l)) with (done := []).
  intros done v Hv. cbn -[merge]. rewrite cs_rt; [easy|now apply H5|].
  apply (Hp _ cs_fields v 5). rewrite !in_app_iff. do 4 right. now apply (in_f_rep 5 (fun n => ser (cs_fields n))).
Qed.

Lemma block_rt rt m : ok_block m -> fits (pb_fields m) -> merge rt (pb_step rt) pb0 (ser (pb_fields m)) = Some m.
Proof.
  intros (H1 & H2 & H3 & H4 & H5) Hf. rewrite merge_ser.
  2: { apply pre_wf; [|exact Hf]. unfold pb_fields. pre. }
  destruct m as [a b c d e f]. cbn in H1, H2, H3, H4, H5.
  unfold pb_fields in *; cbn [pb_strings pb_groups pb_granularity pb_lat_offset pb_lon_offset pb_date_granularity] in *.
  rewrite Forall_forall in H1.
  eapply fold_seq; [eapply fold_len with (m' := PBlock a [] None None None None)|].
  { destruct a as [x|]; [|easy]. cbn -[merge_opt]. unfold merge_opt. cbn [unwrap_or].
    rewrite strings_rt; [easy|].
    eapply (fits_payload _ st_fields); [exact Hf|]. rewrite !in_app_iff. left. cbn. now left. }
  eapply fold_seq.
  { apply (fold_rep (pb_step rt) 2 (fun n => ser (pg_fields n)) (fun l => PBlock a l None None None None)) with (done := []).
    intros done v Hv. cbn -[merge]. rewrite group_rt; [easy|now apply H1|].
    eapply (fits_payload _ pg_fields); [exact Hf|]. rewrite !in_app_iff. right. left.
    now apply (in_f_rep 2 (fun n => ser (pg_fields n))). }
  cbn [app]. eapply fold_seq; [eapply fold_var with (m' := PBlock a b c None None None)|].
  { destruct c; [|easy]. cbn -[dec_i32]. now rewrite i32_ok. }
  eapply fold_seq; [eapply fold_var with (m' := PBlock a b c d None None)|].
  { destruct d; [|easy]. cbn -[dec_i64]. now rewrite i64_ok. }
  eapply fold_seq; [eapply fold_var with (m' := PBlock a b c d e None)|].
  { destruct e; [|easy]. cbn -[dec_i64]. now rewrite i64_ok. }
  eapply fold_var. destruct f; [|easy]. cbn -[dec_i32]. now rewrite i32_ok.
Qed.

Lemma parse_header_ok rt m : ok_header m -> fits (bh_fields m) -> bh_init m = true ->
  parse_header rt (ser_header m) = Some m.
Proof. intros H1 H2 H3. unfold parse_header, ser_header. rewrite header_rt by easy. cbn. now rewrite H3. Qed.
Lemma parse_block_ok rt m : ok_block m -> fits (pb_fields m) -> pb_init m = true ->
  parse_block rt (ser_block m) = Some m.
Proof. intros H1 H2 H3. unfold parse_block, ser_block. rewrite block_rt by easy. cbn. now rewrite H3. Qed.
