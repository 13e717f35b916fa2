(** Parsed messages hold values in the range of their fields, and fields with
    unknown tags are skipped. *)
From Coq Require Import String ZArith List Bool Lia.
From Verif Require Import Base Utf8 PbWire PbMsg PbMsgFacts.
Import ListNotations.
Open Scope Z_scope.

Definition val_ok (w : wval) : Prop := match w with WVar v => in_u64 v | _ => True end.

Lemma read_varint_range rt bs u r : read_varint rt bs = Some (u, r) -> in_u64 u.
Proof. apply rv_range. Qed.

Lemma read_field_range rt bs t w r : read_field rt bs = Some ((t, w), r) -> val_ok w.
Proof.
  unfold read_field. destruct (read_tag rt bs) as [[t' r1]|]; [|easy].
  destruct (t' mod 8 =? 3).
  { destruct (skip_group rt (length r1) r1) as [r2|]; [|easy]. cbn. intros H. injection H as <- <- _. easy. }
  unfold read_value. destruct (t' mod 8 =? 0).
  { destruct (read_varint rt r1) as [[v r2]|] eqn:E; [|easy]. intros H. injection H as <- <- _.
    eapply read_varint_range; eassumption. }
  destruct (t' mod 8 =? 1).
  { destruct (take 8 r1) as [[b r2]|]; [|easy]. intros H. injection H as <- <- _. easy. }
  destruct (t' mod 8 =? 2).
  { destruct (read_varint rt r1) as [[v r2]|]; [|easy]. destruct (take v r2) as [[b r3]|]; [|easy].
    intros H. injection H as <- <- _. easy. }
  destruct (t' mod 8 =? 5); [|easy].
  destruct (take 4 r1) as [[b r2]|]; [|easy]. intros H. injection H as <- <- _. easy.
Qed.

Lemma fields_range rt : forall n bs fs, fields_fuel rt n bs = Some fs -> Forall (fun f => val_ok (snd f)) fs.
Proof.
  induction n as [|n IH]; intros [|b bs] fs H; cbn [fields_fuel] in H; try easy;
    try (injection H as <-; constructor).
  destruct (read_field rt (b :: bs)) as [[[t w] r]|] eqn:E; [|easy].
  destruct (fields_fuel rt n r) as [fs'|] eqn:E2; [|easy]. cbn in H. injection H as <-.
  constructor; [|eapply IH; eassumption]. eapply read_field_range; eassumption.
Qed.

Lemma merge_inv {M} (P : M -> Prop) rt step init bs m :
  (forall m t w m', val_ok w -> P m -> step m (t, w) = Some m' -> P m') ->
  P init -> merge rt step init bs = Some m -> P m.
Proof.
  intros Hs Hi H. unfold merge in H. destruct (fields rt bs) as [fs|] eqn:E; [|easy]. cbn [opt_bind] in H.
  apply fields_range in E. revert init Hi H. induction E as [|[t w] fs Hw _ IH]; intros init Hi H; cbn [fold_opt] in H.
  - now injection H as <-.
  - destruct (step init (t, w)) as [m'|] eqn:E; [|easy]. cbn [opt_bind] in H. eapply IH; [|exact H].
    eapply Hs; eassumption.
Qed.

Lemma packed_range {A} (P : A -> Prop) rt dec bs l :
  (forall u v, in_u64 u -> dec rt u = Some v -> P v) -> packed rt dec bs = Some l -> Forall P l.
Proof.
  intros Hd. unfold packed. generalize (length bs). intros n. revert bs l.
  induction n as [|n IH]; intros [|b bs] l H; cbn [packed_fuel] in H; try easy; try (injection H as <-; constructor).
  destruct (read_varint rt (b :: bs)) as [[u r]|] eqn:E; [|easy].
  destruct (dec rt u) as [v|] eqn:E1; [|easy]. cbn [opt_bind] in H.
  destruct (packed_fuel rt (dec rt) n r) as [l'|] eqn:E2; [|easy]. cbn in H. injection H as <-.
  constructor; [|eapply IH; eassumption]. eapply Hd; [|exact E1]. eapply read_varint_range; eassumption.
Qed.

Lemma unzigzag_range n u : 0 < n -> 0 <= u < 2 * n -> - n <= unzigzag u < n.
Proof.
  intros Hn H. unfold unzigzag. destruct (Z.even u) eqn:E.
  - split; [|apply Z.div_lt_upper_bound; lia]. pose proof (Z.div_pos u 2). lia.
  - pose proof (Z.div_pos (u + 1) 2). assert ((u + 1) / 2 <= n); [|lia].
    apply Z.div_le_upper_bound; lia.
Qed.

Lemma dec_u32_range rt u v : in_u64 u -> dec_u32 rt u = Some v -> in_u32 v.
Proof.
  unfold dec_u32, in_u64, in_u32. intros H E. destruct (u <? 2^32) eqn:L; [injection E as <-; lia|].
  destruct (strict_u32 rt); [easy|]. injection E as <-. apply as_u32_range.
Qed.
Lemma dec_i64_range rt u v : in_u64 u -> dec_i64 rt u = Some v -> in_i64 v.
Proof. intros _ E. injection E as <-. apply as_i64_range. Qed.
Lemma dec_i32_range rt u v : in_u64 u -> dec_i32 rt u = Some v -> in_i32 v.
Proof.
  intros _. unfold dec_i32. destruct (in_i32b (as_i64 u)) eqn:E; intros H.
  - injection H as <-. now apply in_i32b_iff.
  - destruct (strict_i32 rt); [easy|]. injection H as <-. apply as_i32_range.
Qed.
Lemma dec_s64_range rt u v : in_u64 u -> dec_s64 rt u = Some v -> in_i64 v.
Proof. intros H E. injection E as <-. apply (unzigzag_range (2^63)); unfold in_u64 in H; lia. Qed.
Lemma dec_s32_range rt u v : in_u64 u -> dec_s32 rt u = Some v -> in_i32 v.
Proof.
  intros H E. unfold dec_s32 in E. destruct (dec_u32 rt u) as [x|] eqn:E1; [|easy]. cbn in E. injection E as <-.
  apply dec_u32_range in E1; [|easy]. apply (unzigzag_range (2^31)); unfold in_u32 in E1; lia.
Qed.

Lemma on_var_inv {A M} (dec : Z -> option A) (set : A -> M) w m : val_ok w -> on_var dec set w = Some m ->
  exists u v, in_u64 u /\ dec u = Some v /\ m = set v.
Proof.
  intros Hw H. destruct w as [u| | | |]; try easy. cbn in H. destruct (dec u) as [v|] eqn:E; [|easy].
  cbn in H. injection H as <-. exists u, v. easy.
Qed.
Lemma on_len_inv {A M} (dec : bytes -> option A) (set : A -> M) w m : on_len dec set w = Some m ->
  exists b v, dec b = Some v /\ m = set v.
Proof.
  intros H. destruct w as [| |b| |]; try easy. cbn in H. destruct (dec b) as [v|] eqn:E; [|easy].
  cbn in H. injection H as <-. exists b, v. easy.
Qed.

Lemma Forall_snoc {A} (P : A -> Prop) l x : Forall P l -> P x -> Forall P (l ++ [x]).
Proof. intros H1 H2. apply Forall_app. split; [easy|]. now constructor. Qed.
Lemma Forall_join {A} (P : A -> Prop) a b : Forall P a -> Forall P b -> Forall P (a ++ b).
Proof. intros H1 H2. now apply Forall_app. Qed.

(** Split a step into its cases. *)
Ltac step_cases H Hw :=
  repeat match type of H with
  | (if ?c then _ else _) = Some _ => destruct c
  end;
  match type of H with
  | on_var _ _ _ = Some _ =>
      apply (on_var_inv _ _ _ _ Hw) in H;
      let u := fresh "u" in let v := fresh "v" in let Hu := fresh "Hu" in let Hv := fresh "Hv" in
      destruct H as (u & v & Hu & Hv & ->)
  | on_len _ _ _ = Some _ =>
      apply on_len_inv in H;
      let b := fresh "b" in let v := fresh "v" in let Hv := fresh "Hv" in
      destruct H as (b & v & Hv & ->)
  | Some _ = Some _ => injection H as <-
  end.
Ltac in_range :=
  repeat match goal with |- _ /\ _ => split end; try assumption; try exact I;
  try (apply Forall_snoc; [assumption|]); try (apply Forall_join; [assumption|]);
  try (eapply dec_u32_range; eassumption); try (eapply dec_i64_range; eassumption);
  try (eapply dec_i32_range; eassumption); try (eapply dec_s64_range; eassumption);
  try (eapply dec_s32_range; eassumption);
  try (eapply packed_range; [|eassumption]; clear; intros ? ? ? ?;
       first [eapply dec_u32_range; eassumption | eapply dec_i32_range; eassumption
             | eapply dec_s64_range; eassumption | eapply dec_s32_range; eassumption]).

Lemma header_range rt bs m : parse_header rt bs = Some m -> ok_header m.
Proof.
  unfold parse_header, checked_init. destruct (merge _ _ _ _) as [m'|] eqn:E; [|easy].
  destruct (bh_init m'); [|easy]. intros H. injection H as <-.
  apply (merge_inv ok_header) in E; [exact E| |easy]. clear.
  intros [ty ix ds] t w m' Hw P H. unfold bh_step in H. unfold ok_header in *. cbn [bh_type bh_index bh_datasize opt_all] in *.
  destruct P as (P1 & P2). step_cases H Hw; cbn [bh_type bh_index bh_datasize opt_all]; in_range.
  now apply utf8_decode_inv in Hv.
Qed.

Lemma blob_range rt bs m : parse_blob rt bs = Some m -> ok_blob m.
Proof.
  apply (merge_inv ok_blob); [|easy]. clear.
  intros [a b c d e] t w m' Hw P H. unfold bl_step in H. unfold ok_blob in *. cbn [bl_raw_size opt_all] in *.
  step_cases H Hw; cbn [bl_raw_size opt_all]; in_range.
Qed.

Lemma info_range rt init bs m : ok_info init -> merge rt (info_step rt) init bs = Some m -> ok_info m.
Proof.
  apply (merge_inv ok_info). clear.
  intros [a b c d e f] t w m' Hw P H. unfold info_step in H. unfold ok_info in *.
  cbn [i_version i_timestamp i_changeset i_uid i_user_sid i_visible opt_all] in *. destruct P as (P1 & P2 & P3 & P4 & P5).
  step_cases H Hw; cbn [i_version i_timestamp i_changeset i_uid i_user_sid i_visible opt_all]; in_range.
Qed.

Lemma di_range rt init bs m : ok_dense_info init -> merge rt (di_step rt) init bs = Some m -> ok_dense_info m.
Proof.
  apply (merge_inv ok_dense_info). clear.
  intros [a b c d e f] t w m' Hw P H. unfold di_step in H. unfold ok_dense_info in *.
  cbn [di_version di_timestamp di_changeset di_uid di_user_sid di_visible] in *. destruct P as (P1 & P2 & P3 & P4 & P5).
  step_cases H Hw; cbn [di_version di_timestamp di_changeset di_uid di_user_sid di_visible]; in_range.
Qed.

Lemma ok_info0 : ok_info info0.
Proof. easy. Qed.
Lemma ok_di0 : ok_dense_info di0.
Proof. repeat split; constructor. Qed.

Lemma info_opt rt o b m : opt_all ok_info o -> merge_opt rt (info_step rt) info0 o b = Some m -> ok_info m.
Proof. intros H. apply info_range. destruct o; [exact H|exact ok_info0]. Qed.
Lemma di_opt rt o b m : opt_all ok_dense_info o -> merge_opt rt (di_step rt) di0 o b = Some m -> ok_dense_info m.
Proof. intros H. apply di_range. destruct o; [exact H|exact ok_di0]. Qed.

Lemma node_range rt bs m : merge rt (pn_step rt) pn0 bs = Some m -> ok_node m.
Proof.
  apply (merge_inv ok_node); [|repeat split; constructor]. clear.
  intros [a b c d e f] t w m' Hw P H. unfold pn_step in H. unfold ok_node in *.
  cbn [pn_id pn_keys pn_vals pn_info pn_lat pn_lon] in *. destruct P as (P1 & P2 & P3 & P4 & P5 & P6).
  step_cases H Hw; cbn [pn_id pn_keys pn_vals pn_info pn_lat pn_lon opt_all]; in_range.
  eapply info_opt; eassumption.
Qed.

Lemma dense_range rt init bs m : ok_dense init -> merge rt (dn_step rt) init bs = Some m -> ok_dense m.
Proof.
  apply (merge_inv ok_dense). clear.
  intros [a b c d e] t w m' Hw P H. unfold dn_step in H. unfold ok_dense in *.
  cbn [dn_id dn_info dn_lat dn_lon dn_keys_vals] in *. destruct P as (P1 & P2 & P3 & P4 & P5).
  step_cases H Hw; cbn [dn_id dn_info dn_lat dn_lon dn_keys_vals opt_all]; in_range.
  eapply di_opt; eassumption.
Qed.

Lemma way_range rt bs m : merge rt (pw_step rt) pw0 bs = Some m -> ok_way m.
Proof.
  apply (merge_inv ok_way); [|repeat split; constructor]. clear.
  intros [a b c d e] t w m' Hw P H. unfold pw_step in H. unfold ok_way in *.
  cbn [pw_id pw_keys pw_vals pw_info pw_refs] in *. destruct P as (P1 & P2 & P3 & P4 & P5).
  step_cases H Hw; cbn [pw_id pw_keys pw_vals pw_info pw_refs opt_all]; in_range.
  eapply info_opt; eassumption.
Qed.

Lemma rel_range rt bs m : merge rt (pr_step rt) pr0 bs = Some m -> ok_rel m.
Proof.
  apply (merge_inv ok_rel); [|repeat split; constructor]. clear.
  intros [a b c d e f g] t w m' Hw P H. unfold pr_step in H. unfold ok_rel in *.
  cbn [pr_id pr_keys pr_vals pr_info pr_roles pr_memids pr_types] in *. destruct P as (P1 & P2 & P3 & P4 & P5 & P6 & P7).
  step_cases H Hw; cbn [pr_id pr_keys pr_vals pr_info pr_roles pr_memids pr_types opt_all]; in_range.
  eapply info_opt; eassumption.
Qed.

Lemma cs_range rt bs m : merge rt (cs_step rt) None bs = Some m -> ok_change_set m.
Proof.
  apply (merge_inv ok_change_set); [|easy]. clear.
  intros m t w m' Hw P H. unfold cs_step in H. unfold ok_change_set in *.
  step_cases H Hw; cbn [opt_all]; in_range.
Qed.

Lemma group_range rt bs m : merge rt (pg_step rt) pg0 bs = Some m -> ok_group m.
Proof.
  apply (merge_inv ok_group); [|repeat split; constructor]. clear.
  intros [a b c d e] t w m' Hw P H. unfold pg_step in H. unfold ok_group in *.
  cbn [pg_nodes pg_dense pg_ways pg_rels pg_changesets] in *. destruct P as (P1 & P2 & P3 & P4 & P5).
  step_cases H Hw; cbn [pg_nodes pg_dense pg_ways pg_rels pg_changesets opt_all]; in_range.
  - eapply node_range; eassumption.
  - eapply dense_range; [|eassumption]. destruct b; [exact P2|]. repeat split; constructor.
  - eapply way_range; eassumption.
  - eapply rel_range; eassumption.
  - eapply cs_range; eassumption.
Qed.

Lemma block_range rt bs m : parse_block rt bs = Some m -> ok_block m.
Proof.
  unfold parse_block, checked_init. destruct (merge _ _ _ _) as [m'|] eqn:E; [|easy].
  destruct (pb_init m'); [|easy]. intros H. injection H as <-.
  apply (merge_inv ok_block) in E; [exact E| |repeat split; constructor]. clear.
  intros [a b c d e f] t w m' Hw P H. unfold pb_step in H. unfold ok_block in *.
  cbn [pb_strings pb_groups pb_granularity pb_lat_offset pb_lon_offset pb_date_granularity opt_all] in *.
  destruct P as (P1 & P2 & P3 & P4 & P5).
  step_cases H Hw; cbn [pb_strings pb_groups pb_granularity pb_lat_offset pb_lon_offset pb_date_granularity opt_all]; in_range.
  eapply group_range; eassumption.
Qed.
