(** Property C80: a message is written with exactly the size it announces, nested
    messages included, and what is written parses to the message. *)
From Coq Require Import String ZArith List Bool Lia.
From Coq Require Import ZifyBool ZifyNat.
From Verif Require Import Base Utf8 PbWire PbMsg PbMsgFacts PbSize.
Import ListNotations.
Open Scope Z_scope.

(** ** Varints *)

Lemma varint_size_pos v : 0 <= v -> 1 <= varint_size v.
Proof.
  intros H. unfold varint_size. destruct (v =? 0); [lia|]. pose proof (Z.log2_nonneg v).
  Z.div_mod_to_equations; lia.
Qed.

Lemma varint_size_wv n : forall v, (1 <= n)%nat -> 0 <= v < 128 ^ Z.of_nat n ->
  Z.of_nat (length (wv n v)) = varint_size v.
Proof.
  induction n as [|n IH]; intros v Hn Hv; [lia|]. cbn [wv]. unfold varint_size. destruct (v <? 128) eqn:E.
  - cbn [length]. destruct (v =? 0) eqn:E0; [lia|]. assert (H : 0 <= Z.log2 v < 7).
    { split; [apply Z.log2_nonneg|]. apply Z.log2_lt_pow2; lia. }
    Z.div_mod_to_equations; lia.
  - replace (v =? 0) with false by lia. cbn [length]. rewrite Nat2Z.inj_succ.
    destruct n as [|n]; [change (128 ^ Z.of_nat 1) with 128 in Hv; lia|].
    rewrite IH; [|lia|].
    + unfold varint_size. replace (v / 128 =? 0) with false by (symmetry; apply Z.eqb_neq; Z.div_mod_to_equations; lia).
      assert (L : Z.log2 (v / 128) = Z.log2 v - 7).
      { change 128 with (2^7). rewrite <- Z.shiftr_div_pow2 by lia. rewrite Z.log2_shiftr by lia.
        assert (7 <= Z.log2 v) by (apply Z.log2_le_pow2; lia). lia. }
      rewrite L. Z.div_mod_to_equations; lia.
    + split; [apply Z.div_pos; lia|]. apply Z.div_lt_upper_bound; [lia|].
      replace (Z.of_nat (S (S n))) with (Z.succ (Z.of_nat (S n))) in Hv by lia.
      rewrite Z.pow_succ_r in Hv by lia. lia.
Qed.

Lemma varint_len v : in_u64 v -> Z.of_nat (length (varint v)) = varint_size v.
Proof. intros H. unfold in_u64 in H. apply varint_size_wv; [lia|]. change (128 ^ Z.of_nat 10) with (2^70). lia. Qed.

(** The wire type does not change the length of a tag. *)
Lemma tag_len n k : 1 <= n < 2^29 -> 0 <= k < 8 -> Z.of_nat (length (varint (8 * n + k))) = tag_size n.
Proof.
  intros Hn Hk. rewrite varint_len by (unfold in_u64; lia). unfold tag_size, varint_size.
  replace (8 * n =? 0) with false by lia. replace (8 * n + k =? 0) with false by lia. f_equal. f_equal. f_equal.
  assert (P : forall x, Z.log2 (8 * n + x) = Z.log2 (8 * n + x)) by reflexivity.
  pose proof (Z.log2_spec n ltac:(lia)) as S.
  assert (Q : forall x, 0 <= x < 8 -> Z.log2 (8 * n + x) = 3 + Z.log2 n).
  { intros x Hx. pose proof (Z.log2_nonneg n). apply Z.log2_unique; [lia|].
    rewrite <- Z.add_succ_r. rewrite !Z.pow_add_r by lia. change (2^3) with 8. lia. }
  rewrite (Q k Hk). pose proof (Q 0 ltac:(lia)) as Q0. rewrite Z.add_0_r in Q0. now rewrite Q0.
Qed.

(** ** Pieces of a message *)

(** [s] bytes are announced for the fields [fs], and [w] is written. *)
Definition piece (s : Z) (fs : list field) (w : bytes) : Prop :=
  0 <= s /\ (s < 2^32 -> w = ser fs /\ Z.of_nat (length w) = s).

Lemma piece_nil : piece 0 [] [].
Proof. split; [lia|]. intros _. split; reflexivity. Qed.

Lemma piece_app s1 s2 f1 f2 w1 w2 : piece s1 f1 w1 -> piece s2 f2 w2 -> piece (s1 + s2) (f1 ++ f2) (w1 ++ w2).
Proof.
  intros (P1 & H1) (P2 & H2). split; [lia|]. intros Hs. destruct (H1 ltac:(lia)) as (-> & L1).
  destruct (H2 ltac:(lia)) as (-> & L2). rewrite ser_app, app_length. split; [reflexivity|lia].
Qed.

Lemma varint_size_nonneg v : 0 <= varint_size v.
Proof. unfold varint_size. destruct (v =? 0); [lia|]. pose proof (Z.log2_nonneg v). apply Z.div_pos; lia. Qed.

Lemma piece_var {A} n (enc : A -> Z) o : num n -> opt_all (fun v => in_u64 (enc v)) o ->
  piece (opt_size (var_size n enc) o) (f_var n enc o) (put_opt (put_var n enc) o).
Proof.
  intros Hn H. destruct o as [v|]; [|exact piece_nil]. cbn [opt_size f_var put_opt opt_all] in *. unfold var_size, put_var, num in *.
  split.
  - pose proof (varint_size_nonneg (enc v)). pose proof (varint_size_nonneg (8 * n)). unfold tag_size. lia.
  - intros _. cbn [ser flat_map ser_field fst snd]. split; [now rewrite app_nil_r|].
    rewrite app_length. rewrite Nat2Z.inj_add, (varint_len (enc v) H).
    pose proof (tag_len n 0 Hn ltac:(lia)) as T. rewrite Z.add_0_r in T. now rewrite T.
Qed.

Lemma piece_payload n b : num n -> piece (len_size n b) [(8 * n + 2, WLen b)] (put_len n b).
Proof.
  intros Hn. unfold num in Hn. unfold len_size, put_len. pose proof (varint_size_nonneg (8 * n)).
  pose proof (varint_size_nonneg (Z.of_nat (length b))).
  split; [unfold tag_size; lia|]. intros Hs. split.
  - cbn [ser flat_map ser_field fst snd]. now rewrite app_nil_r.
  - rewrite !app_length, !Nat2Z.inj_add. rewrite (tag_len n 2 Hn ltac:(lia)). rewrite varint_len; [lia|].
    unfold in_u64, tag_size in *. lia.
Qed.

Lemma piece_len {A} n (enc : A -> bytes) o : num n ->
  piece (opt_size (fun v => len_size n (enc v)) o) (f_len n enc o) (put_opt (fun v => put_len n (enc v)) o).
Proof. intros Hn. destruct o as [v|]; [|exact piece_nil]. now apply piece_payload. Qed.

Lemma piece_rep {A} n (enc : A -> bytes) l : num n ->
  piece (sum_size (fun v => len_size n (enc v)) l) (f_rep n enc l) (flat_map (fun v => put_len n (enc v)) l).
Proof.
  intros Hn. induction l as [|v l IH]; [exact piece_nil|].
  change (piece (len_size n (enc v) + sum_size (fun v => len_size n (enc v)) l)
            ([(8 * n + 2, WLen (enc v))] ++ f_rep n enc l)
            (put_len n (enc v) ++ flat_map (fun v => put_len n (enc v)) l)).
  apply piece_app; [|exact IH]. now apply piece_payload.
Qed.

Lemma data_len {A} (enc : A -> Z) l : Forall (fun v => in_u64 (enc v)) l ->
  Z.of_nat (length (flat_map (fun v => varint (enc v)) l)) = data_size enc l.
Proof.
  induction 1 as [|v l H _ IH]; [reflexivity|]. cbn [flat_map]. unfold data_size in *. cbn [fold_right].
  rewrite app_length, Nat2Z.inj_add, IH. now rewrite varint_len.
Qed.

Lemma piece_packed {A} n (enc : A -> Z) l : num n -> Forall (fun v => in_u64 (enc v)) l ->
  piece (packed_size n enc l) (f_packed n enc l) (put_packed n enc l).
Proof.
  intros Hn H. pose proof (data_len enc l H) as D. destruct l as [|v l]; [exact piece_nil|].
  cbn [packed_size f_packed put_packed]. rewrite <- D. now apply piece_payload.
Qed.

Lemma piece_packed_bool n l : num n -> piece (packed_bool_size n l) (f_packed n enc_bool l) (put_packed n enc_bool l).
Proof.
  intros Hn. assert (D : Z.of_nat (length (flat_map (fun v => varint (enc_bool v)) l)) = Z.of_nat (length l)).
  { f_equal. induction l as [|b l IH]; [reflexivity|]. cbn [flat_map]. rewrite app_length, IH. now destruct b. }
  destruct l as [|v l]; [exact piece_nil|]. cbn [packed_bool_size f_packed put_packed]. rewrite <- D. now apply piece_payload.
Qed.

(** Nested messages; the generated code counts one byte for their tag. *)
Lemma piece_msg n s fs w : 1 <= n < 16 -> piece s fs w -> piece (nested s) [(8 * n + 2, WLen (ser fs))] (put_msg n s w).
Proof.
  intros Hn (P & H). unfold nested, put_msg. pose proof (varint_size_nonneg s). split; [lia|]. intros Hs.
  destruct (H ltac:(lia)) as (-> & L). generalize dependent (ser fs). intros b _ L. cbn [ser flat_map ser_field fst snd]. rewrite app_nil_r.
  rewrite as_u32_id by (unfold in_u32; lia). split; [unfold ser_field; cbn [fst snd]; now rewrite L|].
  rewrite !app_length, !Nat2Z.inj_add, L. rewrite (tag_len n 2 ltac:(lia) ltac:(lia)). rewrite (varint_len s) by (unfold in_u64; lia).
  assert (T : tag_size n = 1).
  { unfold tag_size, varint_size. replace (8 * n =? 0) with false by lia.
    assert (3 <= Z.log2 (8 * n) < 7) by (split; [apply Z.log2_le_pow2; lia|apply Z.log2_lt_pow2; lia]).
    Z.div_mod_to_equations; lia. }
  lia.
Qed.

Lemma piece_msg_opt {M} n (size : M -> Z) (fs : M -> list field) (write : M -> bytes) o : 1 <= n < 16 ->
  opt_all (fun v => piece (size v) (fs v) (write v)) o ->
  piece (opt_size (fun v => nested (size v)) o) (f_len n (fun v => ser (fs v)) o) (put_opt (fun v => put_msg n (size v) (write v)) o).
Proof. intros Hn H. destruct o as [v|]; [|exact piece_nil]. now apply piece_msg. Qed.

Lemma piece_msg_rep {M} n (size : M -> Z) (fs : M -> list field) (write : M -> bytes) l : 1 <= n < 16 ->
  Forall (fun v => piece (size v) (fs v) (write v)) l ->
  piece (sum_size (fun v => nested (size v)) l) (f_rep n (fun v => ser (fs v)) l) (flat_map (fun v => put_msg n (size v) (write v)) l).
Proof.
  intros Hn. induction 1 as [|v l H _ IH]; [exact piece_nil|].
  change (piece (nested (size v) + sum_size (fun v => nested (size v)) l)
            ([(8 * n + 2, WLen (ser (fs v)))] ++ f_rep n (fun v => ser (fs v)) l)
            (put_msg n (size v) (write v) ++ flat_map (fun v => put_msg n (size v) (write v)) l)).
  apply piece_app; [|exact IH]. now apply piece_msg.
Qed.

Ltac rng :=
  first
  [ eapply opt_all_impl; [|eassumption]; intros ?; first [apply u64_of_u32 | apply u64_of_s64 | apply u64_of_s32]
  | apply opt_all_any; first [apply u64_of_i64 | apply u64_of_i32 | apply u64_of_bool]
  | eapply Forall_impl; [|eassumption]; intros ? ?; first [now apply u64_of_u32 | now apply u64_of_s64 | now apply u64_of_s32 | apply u64_of_i32 | apply u64_of_i64] ].
Ltac pieces :=
  rewrite <- ?Z.add_assoc; repeat apply piece_app;
  first [ apply piece_packed_bool; unfold num; lia
        | apply piece_packed; [unfold num; lia|rng]
        | apply piece_var; [unfold num; lia|rng]
        | apply piece_len; unfold num; lia
        | apply (piece_len _ (fun b => b)); unfold num; lia
        | apply piece_rep; unfold num; lia
        | apply (piece_rep _ (fun b => b)); unfold num; lia
        | idtac ].

Lemma header_piece m : ok_header m -> piece (bh_size m) (bh_fields m) (bh_write m).
Proof. intros (H1 & H2). unfold bh_size, bh_fields, bh_write. pieces. Qed.
Lemma blob_piece m : ok_blob m -> piece (bl_size m) (bl_fields m) (bl_write m).
Proof. intros H1. unfold bl_size, bl_fields, bl_write. pieces. Qed.
Lemma strings_piece m : piece (st_size m) (st_fields m) (st_write m).
Proof. unfold st_size, st_fields, st_write. pieces. Qed.
Lemma info_piece m : ok_info m -> piece (info_size m) (info_fields m) (info_write m).
Proof.
  intros (H1 & H2 & H3 & H4 & H5). unfold info_size, info_fields, info_write.
  replace (opt_size (fun _ => 1 + 1) (i_visible m)) with (opt_size (var_size 6 enc_bool) (i_visible m)) by (now destruct (i_visible m) as [[]|]).
  pieces.
Qed.
Lemma di_piece m : ok_dense_info m -> piece (di_size m) (di_fields m) (di_write m).
Proof. intros (H1 & H2 & H3 & H4 & H5). unfold di_size, di_fields, di_write. pieces. Qed.
Lemma cs_piece m : ok_change_set m -> piece (cs_size m) (cs_fields m) (cs_write m).
Proof. intros H. unfold cs_size, cs_fields, cs_write, ok_change_set in *. pieces. Qed.
Lemma node_piece m : ok_node m -> piece (pn_size m) (pn_fields m) (pn_write m).
Proof.
  intros (H1 & H2 & H3 & H4 & H5 & H6). unfold pn_size, pn_fields, pn_write. pieces.
  apply piece_msg_opt; [lia|]. eapply opt_all_impl; [|exact H4]. exact info_piece.
Qed.
Lemma dense_piece m : ok_dense m -> piece (dn_size m) (dn_fields m) (dn_write m).
Proof.
  intros (H1 & H2 & H3 & H4 & H5). unfold dn_size, dn_fields, dn_write. pieces.
  apply piece_msg_opt; [lia|]. eapply opt_all_impl; [|exact H2]. exact di_piece.
Qed.
Lemma way_piece m : ok_way m -> piece (pw_size m) (pw_fields m) (pw_write m).
Proof.
  intros (H1 & H2 & H3 & H4 & H5). unfold pw_size, pw_fields, pw_write. pieces.
  apply piece_msg_opt; [lia|]. eapply opt_all_impl; [|exact H4]. exact info_piece.
Qed.
Lemma rel_piece m : ok_rel m -> piece (pr_size m) (pr_fields m) (pr_write m).
Proof.
  intros (H1 & H2 & H3 & H4 & H5 & H6 & H7). unfold pr_size, pr_fields, pr_write. pieces.
  apply piece_msg_opt; [lia|]. eapply opt_all_impl; [|exact H4]. exact info_piece.
Qed.
Lemma group_piece m : ok_group m -> piece (pg_size m) (pg_fields m) (pg_write m).
Proof.
  intros (H1 & H2 & H3 & H4 & H5). unfold pg_size, pg_fields, pg_write. rewrite <- ?Z.add_assoc.
  apply piece_app; [apply piece_msg_rep; [lia|]; eapply Forall_impl; [|exact H1]; exact node_piece|].
  apply piece_app; [apply piece_msg_opt; [lia|]; eapply opt_all_impl; [|exact H2]; exact dense_piece|].
  apply piece_app; [apply piece_msg_rep; [lia|]; eapply Forall_impl; [|exact H3]; exact way_piece|].
  apply piece_app; [apply piece_msg_rep; [lia|]; eapply Forall_impl; [|exact H4]; exact rel_piece|].
  apply piece_msg_rep; [lia|]; eapply Forall_impl; [|exact H5]; exact cs_piece.
Qed.
Lemma block_piece m : ok_block m -> piece (pb_size m) (pb_fields m) (pb_write m).
Proof.
  intros (H1 & H2 & H3 & H4 & H5). unfold pb_size, pb_fields, pb_write. rewrite <- ?Z.add_assoc.
  apply piece_app; [apply piece_msg_opt; [lia|]; apply opt_all_any; exact strings_piece|].
  apply piece_app; [apply piece_msg_rep; [lia|]; eapply Forall_impl; [|exact H1]; exact group_piece|].
  pieces.
Qed.

(** ** The header block *)

(** Value ranges of the header messages (specification). *)
Definition ok_bbox (m : header_bbox) : Prop :=
  opt_all in_i64 (hb_left m) /\ opt_all in_i64 (hb_right m) /\ opt_all in_i64 (hb_top m) /\ opt_all in_i64 (hb_bottom m).
Definition ok_header_block (m : header_block) : Prop :=
  opt_all ok_bbox (hk_bbox m) /\ Forall valid_str (hk_required m) /\ Forall valid_str (hk_optional m) /\
  opt_all valid_str (hk_program m) /\ opt_all valid_str (hk_source m) /\
  opt_all in_i64 (hk_rep_time m) /\ opt_all in_i64 (hk_rep_seq m) /\ opt_all valid_str (hk_rep_url m).

Definition hb_fields (m : header_bbox) : list field :=
  f_var 1 enc_s64 (hb_left m) ++ f_var 2 enc_s64 (hb_right m) ++ f_var 3 enc_s64 (hb_top m) ++ f_var 4 enc_s64 (hb_bottom m).
Definition hk_fields (m : header_block) : list field :=
  f_len 1 (fun b => ser (hb_fields b)) (hk_bbox m) ++ f_rep 4 utf8 (hk_required m) ++ f_rep 5 utf8 (hk_optional m) ++
  f_len 16 utf8 (hk_program m) ++ f_len 17 utf8 (hk_source m) ++ f_var 32 enc_i64 (hk_rep_time m) ++
  f_var 33 enc_i64 (hk_rep_seq m) ++ f_len 34 utf8 (hk_rep_url m).

Lemma bbox_piece m : ok_bbox m -> piece (hb_size m) (hb_fields m) (hb_write m).
Proof. intros (H1 & H2 & H3 & H4). unfold hb_size, hb_fields, hb_write. pieces. Qed.
Lemma header_block_piece m : ok_header_block m -> piece (hk_size m) (hk_fields m) (hk_write m).
Proof.
  intros (H1 & H2 & H3 & H4 & H5 & H6 & H7 & H8). unfold hk_size, hk_fields, hk_write. rewrite <- ?Z.add_assoc.
  apply piece_app; [apply piece_msg_opt; [lia|]; eapply opt_all_impl; [|exact H1]; exact bbox_piece|].
  pieces.
Qed.

Lemma bbox_rt rt m : ok_bbox m -> fits (hb_fields m) -> merge rt (hb_step rt) hb0 (ser (hb_fields m)) = Some m.
Proof.
  intros (H1 & H2 & H3 & H4) Hf. rewrite merge_ser.
  2: { apply pre_wf; [|exact Hf]. unfold hb_fields. pre. }
  destruct m as [a b c d]. cbn in H1, H2, H3, H4. unfold hb_fields; cbn [hb_left hb_right hb_top hb_bottom].
  eapply fold_seq; [eapply fold_var with (m' := HeaderBBox a None None None)|].
  { destruct a; [|easy]. cbn -[dec_s64]. now rewrite s64_ok. }
  eapply fold_seq; [eapply fold_var with (m' := HeaderBBox a b None None)|].
  { destruct b; [|easy]. cbn -[dec_s64]. now rewrite s64_ok. }
  eapply fold_seq; [eapply fold_var with (m' := HeaderBBox a b c None)|].
  { destruct c; [|easy]. cbn -[dec_s64]. now rewrite s64_ok. }
  eapply fold_var. destruct d; [|easy]. cbn -[dec_s64]. now rewrite s64_ok.
Qed.

Lemma header_block_rt rt m : ok_header_block m -> fits (hk_fields m) -> merge rt (hk_step rt) hk0 (ser (hk_fields m)) = Some m.
Proof.
  intros (H1 & H2 & H3 & H4 & H5 & H6 & H7 & H8) Hf. rewrite merge_ser.
  2: { apply pre_wf; [|exact Hf]. unfold hk_fields. pre. }
  destruct m as [a b c d e f g h]. cbn in H1, H2, H3, H4, H5, H6, H7, H8.
  unfold hk_fields in *; cbn [hk_bbox hk_required hk_optional hk_program hk_source hk_rep_time hk_rep_seq hk_rep_url] in *.
  rewrite Forall_forall in H2, H3.
  eapply fold_seq; [eapply fold_len with (m' := HeaderBlock a [] [] None None None None None)|].
  { destruct a as [x|]; [|easy]. cbn -[merge_opt]. unfold merge_opt. cbn [unwrap_or]. rewrite bbox_rt; [easy|easy|].
    apply (fits_payload 10 hb_fields x _ Hf). rewrite in_app_iff. left. cbn. now left. }
  eapply fold_seq.
  { apply (fold_rep (hk_step rt) 4 utf8 (fun l => HeaderBlock a l [] None None None None None)) with (done := []).
    intros done v Hv. cbn -[utf8_decode]. now rewrite utf8_decode_encode by now apply H2. }
  cbn [app]. eapply fold_seq.
  { apply (fold_rep (hk_step rt) 5 utf8 (fun l => HeaderBlock a b l None None None None None)) with (done := []).
    intros done v Hv. cbn -[utf8_decode]. now rewrite utf8_decode_encode by now apply H3. }
  cbn [app].
  eapply fold_seq; [eapply fold_len with (m' := HeaderBlock a b c d None None None None)|].
  { destruct d; [|easy]. cbn -[utf8_decode]. now rewrite utf8_decode_encode. }
  eapply fold_seq; [eapply fold_len with (m' := HeaderBlock a b c d e None None None)|].
  { destruct e; [|easy]. cbn -[utf8_decode]. now rewrite utf8_decode_encode. }
  eapply fold_seq; [eapply fold_var with (m' := HeaderBlock a b c d e f None None)|].
  { destruct f; [|easy]. cbn -[dec_i64]. now rewrite i64_ok. }
  eapply fold_seq; [eapply fold_var with (m' := HeaderBlock a b c d e f g None)|].
  { destruct g; [|easy]. cbn -[dec_i64]. now rewrite i64_ok. }
  eapply fold_len. destruct h; [|easy]. cbn -[utf8_decode]. now rewrite utf8_decode_encode.
Qed.

(** ** The property *)

(** A complete message is written, without a panic, with exactly the announced
    number of bytes, and these parse to the message; a message that lacks a required
    field is refused. *)
Definition written {M} (init : M -> bool) (size : M -> Z) (write : M -> bytes) (parse : bytes -> option M) (m : M) : Prop :=
  Z.of_nat (length (write m)) = size m /\
  (init m = true -> write_to_bytes init size write m = Ret (Some (write m)) /\ parse (write m) = Some m) /\
  (init m = false -> write_to_bytes init size write m = Ret None).
(** The messages that are only written inside others. *)
Definition all_written {M} (size : M -> Z) (write : M -> bytes) (parse : bytes -> option M) (m : M) : Prop :=
  Z.of_nat (length (write m)) = size m /\ parse (write m) = Some m.

Lemma written_of {M} init (size : M -> Z) write parse fs (m : M) : piece (size m) (fs m) (write m) -> size m < 2^32 ->
  (fits (fs m) -> init m = true -> parse (ser (fs m)) = Some m) -> written init size write parse m.
Proof.
  intros (_ & P) Hs H. destruct (P Hs) as (E & L). unfold written, write_to_bytes. rewrite L, Z.eqb_refl.
  split; [reflexivity|]. split; intros I; rewrite I; [|reflexivity]. split; [reflexivity|]. rewrite E. apply H; [|exact I].
  unfold fits. rewrite <- E. lia.
Qed.
Lemma all_written_of {M} (size : M -> Z) write parse fs (m : M) : piece (size m) (fs m) (write m) -> size m < 2^32 ->
  (fits (fs m) -> parse (ser (fs m)) = Some m) -> all_written size write parse m.
Proof.
  intros (_ & P) Hs H. destruct (P Hs) as (E & L). split; [exact L|]. rewrite E. apply H. unfold fits. rewrite <- E. lia.
Qed.

Theorem C80_written_size : forall rt,
  (forall m, ok_header m -> bh_size m < 2^32 -> written bh_init bh_size bh_write (parse_header rt) m) /\
  (forall m, ok_blob m -> bl_size m < 2^32 -> written (fun _ => true) bl_size bl_write (parse_blob rt) m) /\
  (forall m, ok_header_block m -> hk_size m < 2^32 -> written hk_init hk_size hk_write (parse_header_block rt) m) /\
  (forall m, ok_block m -> pb_size m < 2^32 -> written pb_init pb_size pb_write (parse_block rt) m) /\
  (forall m, ok_bbox m -> hb_size m < 2^32 -> all_written hb_size hb_write (merge rt (hb_step rt) hb0) m) /\
  (forall m, st_size m < 2^32 -> all_written st_size st_write (merge rt (st_step rt) []) m) /\
  (forall m, ok_group m -> pg_size m < 2^32 -> all_written pg_size pg_write (merge rt (pg_step rt) pg0) m) /\
  (forall m, ok_info m -> info_size m < 2^32 -> all_written info_size info_write (merge rt (info_step rt) info0) m) /\
  (forall m, ok_dense_info m -> di_size m < 2^32 -> all_written di_size di_write (merge rt (di_step rt) di0) m) /\
  (forall m, ok_change_set m -> cs_size m < 2^32 -> all_written cs_size cs_write (merge rt (cs_step rt) None) m) /\
  (forall m, ok_node m -> pn_size m < 2^32 -> all_written pn_size pn_write (merge rt (pn_step rt) pn0) m) /\
  (forall m, ok_dense m -> dn_size m < 2^32 -> all_written dn_size dn_write (merge rt (dn_step rt) dn0) m) /\
  (forall m, ok_way m -> pw_size m < 2^32 -> all_written pw_size pw_write (merge rt (pw_step rt) pw0) m) /\
  (forall m, ok_rel m -> pr_size m < 2^32 -> all_written pr_size pr_write (merge rt (pr_step rt) pr0) m).
Proof.
  intros rt. repeat match goal with |- _ /\ _ => split end.
  - intros m H Hs. apply (written_of _ _ _ _ bh_fields); [now apply header_piece|exact Hs|]. intros F I. now apply parse_header_ok.
  - intros m H Hs. apply (written_of _ _ _ _ bl_fields); [now apply blob_piece|exact Hs|]. intros F _. now apply blob_rt.
  - intros m H Hs. apply (written_of _ _ _ _ hk_fields); [now apply header_block_piece|exact Hs|]. intros F I.
    unfold parse_header_block. rewrite header_block_rt by assumption. cbn [checked_init]. now rewrite I.
  - intros m H Hs. apply (written_of _ _ _ _ pb_fields); [now apply block_piece|exact Hs|]. intros F I. now apply parse_block_ok.
  - intros m H Hs. apply (all_written_of _ _ _ hb_fields); [now apply bbox_piece|exact Hs|]. now apply bbox_rt.
  - intros m Hs. apply (all_written_of _ _ _ st_fields); [now apply strings_piece|exact Hs|]. apply strings_rt.
  - intros m H Hs. apply (all_written_of _ _ _ pg_fields); [now apply group_piece|exact Hs|]. now apply group_rt.
  - intros m H Hs. apply (all_written_of _ _ _ info_fields); [now apply info_piece|exact Hs|]. now apply info_rt.
  - intros m H Hs. apply (all_written_of _ _ _ di_fields); [now apply di_piece|exact Hs|]. now apply di_rt.
  - intros m H Hs. apply (all_written_of _ _ _ cs_fields); [now apply cs_piece|exact Hs|]. now apply cs_rt.
  - intros m H Hs. apply (all_written_of _ _ _ pn_fields); [now apply node_piece|exact Hs|]. now apply node_rt.
  - intros m H Hs. apply (all_written_of _ _ _ dn_fields); [now apply dense_piece|exact Hs|]. now apply dense_rt.
  - intros m H Hs. apply (all_written_of _ _ _ pw_fields); [now apply way_piece|exact Hs|]. now apply way_rt.
  - intros m H Hs. apply (all_written_of _ _ _ pr_fields); [now apply rel_piece|exact Hs|]. now apply rel_rt.
Qed.
Print Assumptions C80_written_size.

(** The files of the other theorems are made of the bytes these writers produce. *)
Theorem C80_same_bytes :
  (forall m, ok_header m -> bh_size m < 2^32 -> bh_write m = ser_header m) /\
  (forall m, ok_blob m -> bl_size m < 2^32 -> bl_write m = ser_blob m) /\
  (forall m, ok_block m -> pb_size m < 2^32 -> pb_write m = ser_block m).
Proof.
  split; [|split]; intros m H Hs.
  - now apply (proj2 (header_piece m H)).
  - now apply (proj2 (blob_piece m H)).
  - now apply (proj2 (block_piece m H)).
Qed.
Print Assumptions C80_same_bytes.

(** Two groups, a relation with metadata and dense nodes with all columns: 169 bytes. *)
Definition ex_sized : pblock :=
  PBlock (Some [[]; lit "name"; lit "Kölliken"])
    [PGroup [] None [] [PRel (Some (-5)) [1; 300] [2; 2] (Some (Info (Some (-1)) (Some 1600000000) None (Some 7) (Some 4294967295) (Some true)))
                          [0; 2147483647] [-9223372036854775808; 3] [0; 2]] [Some 1];
     PGroup [] (Some (DenseNodes [1; -1] (Some (DenseInfo [1; 2] [0; 1] [5; 5] [1; -1] [2; 0] [true; false])) [100; 200] [-300; 4] [1; 2; 0; 0])) [] [] []]
    (Some 100) None (Some (-1)) None.
Example C80_ex : ok_block ex_sized /\ pb_init ex_sized = true /\ 100 < pb_size ex_sized < 2^32 /\
  write_to_bytes pb_init pb_size pb_write ex_sized = Ret (Some (pb_write ex_sized)) /\
  parse_block (Pbrt true true true) (pb_write ex_sized) = Some ex_sized.
Proof.
  assert (O : ok_block ex_sized).
  { unfold ok_block, ok_group, ok_rel, ok_dense, ok_info, ok_dense_info, ok_change_set, ex_sized, in_i32, in_u32, in_i64; cbn.
    repeat first [exact I | lia | apply conj | apply Forall_nil | apply Forall_cons]. }
  assert (S : pb_size ex_sized < 2^32) by reflexivity.
  destruct (proj1 (proj2 (proj2 (proj2 (C80_written_size (Pbrt true true true))))) ex_sized O S) as (_ & W & _).
  split; [exact O|]. split; [reflexivity|]. split; [split; reflexivity|]. exact (W eq_refl).
Qed.
