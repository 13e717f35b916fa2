(** C32-C34: the protobuf wire format and the framing of PBF files. *)
From Coq Require Import String ZArith List Bool Lia.
From Coq Require Import ZifyBool ZifyNat.
From Verif Require Import Base Utf8 Timestamp Obj SpecIter PbWire PbMsg PbMsgFacts PbRange PbfRead SpecPbf PbfFrame.
Import ListNotations.
Open Scope Z_scope.

(** ** C32 *)

(** Every message that fits the format's 32-bit sizes comes back from the bytes it
    serialises to: the three top-level messages and the nine nested ones. *)
Theorem C32_messages_roundtrip : forall rt,
  (forall m, ok_header m -> fits (bh_fields m) -> bh_init m = true -> parse_header rt (ser_header m) = Some m) /\
  (forall m, ok_blob m -> fits (bl_fields m) -> parse_blob rt (ser_blob m) = Some m) /\
  (forall m, ok_block m -> fits (pb_fields m) -> pb_init m = true -> parse_block rt (ser_block m) = Some m) /\
  (forall m, fits (st_fields m) -> merge rt (st_step rt) [] (ser (st_fields m)) = Some m) /\
  (forall m, ok_group m -> fits (pg_fields m) -> merge rt (pg_step rt) pg0 (ser (pg_fields m)) = Some m) /\
  (forall m, ok_info m -> fits (info_fields m) -> merge rt (info_step rt) info0 (ser (info_fields m)) = Some m) /\
  (forall m, ok_dense_info m -> fits (di_fields m) -> merge rt (di_step rt) di0 (ser (di_fields m)) = Some m) /\
  (forall m, ok_change_set m -> fits (cs_fields m) -> merge rt (cs_step rt) None (ser (cs_fields m)) = Some m) /\
  (forall m, ok_node m -> fits (pn_fields m) -> merge rt (pn_step rt) pn0 (ser (pn_fields m)) = Some m) /\
  (forall m, ok_dense m -> fits (dn_fields m) -> merge rt (dn_step rt) dn0 (ser (dn_fields m)) = Some m) /\
  (forall m, ok_way m -> fits (pw_fields m) -> merge rt (pw_step rt) pw0 (ser (pw_fields m)) = Some m) /\
  (forall m, ok_rel m -> fits (pr_fields m) -> merge rt (pr_step rt) pr0 (ser (pr_fields m)) = Some m).
Proof.
  intros rt. repeat match goal with |- _ /\ _ => split end.
  - apply parse_header_ok.
  - apply blob_rt.
  - apply parse_block_ok.
  - apply strings_rt.
  - apply group_rt.
  - apply info_rt.
  - apply di_rt.
  - apply cs_rt.
  - apply node_rt.
  - apply dense_rt.
  - apply way_rt.
  - apply rel_rt.
Qed.
Print Assumptions C32_messages_roundtrip.

(** Whatever is parsed consists of values in the range of their fields, so parsing
    what is serialised again gives the same message. *)
Theorem C32_parsed_roundtrip : forall rt,
  (forall bs m, parse_header rt bs = Some m -> fits (bh_fields m) -> parse_header rt (ser_header m) = Some m) /\
  (forall bs m, parse_blob rt bs = Some m -> fits (bl_fields m) -> parse_blob rt (ser_blob m) = Some m) /\
  (forall bs m, parse_block rt bs = Some m -> fits (pb_fields m) -> parse_block rt (ser_block m) = Some m).
Proof.
  intros rt. repeat match goal with |- _ /\ _ => split end; intros bs m H F.
  - apply parse_header_ok; [now apply header_range in H|easy|].
    unfold parse_header, checked_init in H. destruct (merge _ _ _ _) as [x|]; [|easy].
    destruct (bh_init x) eqn:E; [|easy]. now injection H as <-.
  - apply blob_rt; [now apply blob_range in H|easy].
  - apply parse_block_ok; [now apply block_range in H|easy|].
    unfold parse_block, checked_init in H. destruct (merge _ _ _ _) as [x|]; [|easy].
    destruct (pb_init x) eqn:E; [|easy]. now injection H as <-.
Qed.
Print Assumptions C32_parsed_roundtrip.

(** The field numbers of each message, from the format's .proto files. *)
Definition header_nums := [1; 2; 3].
Definition blob_nums := [1; 2; 3; 4; 5].
Definition block_nums := [1; 2; 17; 18; 19; 20].
Definition strings_nums := [1].
Definition group_nums := [1; 2; 3; 4; 5].
Definition info_nums := [1; 2; 3; 4; 5; 6].
Definition dense_info_nums := [1; 2; 3; 4; 5; 6].
Definition change_set_nums := [1].
Definition node_nums := [1; 2; 3; 4; 8; 9].
Definition dense_nums := [1; 5; 8; 9; 10].
Definition way_nums := [1; 2; 3; 4; 8].
Definition rel_nums := [1; 2; 3; 4; 8; 9; 10].

(** A field of a later version of the format: a number not in the list. *)
Definition unknown (nums : list Z) (f : field) : Prop := ~ In (fst f / 8) nums.

Lemma fold_skip {M} (step : M -> field -> option M) u : (forall m, step m u = Some m) -> forall fs1 fs2 m,
  fold_opt step m (fs1 ++ u :: fs2) = fold_opt step m (fs1 ++ fs2).
Proof.
  intros H. induction fs1 as [|f fs1 IH]; intros fs2 m; cbn [app fold_opt].
  - now rewrite H.
  - destruct (step m f); cbn [opt_bind]; [apply IH|easy].
Qed.

Lemma merge_skip {M} rt (step : M -> field -> option M) fs1 u fs2 m :
  Forall wf_field (fs1 ++ u :: fs2) -> (forall m, step m u = Some m) ->
  merge rt step m (ser (fs1 ++ u :: fs2)) = merge rt step m (ser (fs1 ++ fs2)).
Proof.
  intros W H. rewrite !merge_ser.
  - now apply fold_skip.
  - apply Forall_app in W as (W1 & W2). apply Forall_app. split; [easy|]. now inv W2.
  - exact W.
Qed.

Lemma unknown_steps rt nums (u : field) : unknown nums u ->
  (nums = header_nums -> forall m, bh_step rt m u = Some m) /\
  (nums = blob_nums -> forall m, bl_step rt m u = Some m) /\
  (nums = block_nums -> forall m, pb_step rt m u = Some m) /\
  (nums = strings_nums -> forall m, st_step rt m u = Some m) /\
  (nums = group_nums -> forall m, pg_step rt m u = Some m) /\
  (nums = info_nums -> forall m, info_step rt m u = Some m) /\
  (nums = dense_info_nums -> forall m, di_step rt m u = Some m) /\
  (nums = change_set_nums -> forall m, cs_step rt m u = Some m) /\
  (nums = node_nums -> forall m, pn_step rt m u = Some m) /\
  (nums = dense_nums -> forall m, dn_step rt m u = Some m) /\
  (nums = way_nums -> forall m, pw_step rt m u = Some m) /\
  (nums = rel_nums -> forall m, pr_step rt m u = Some m).
Proof.
  destruct u as [t w]. intros H. unfold unknown in H. cbn [fst] in H.
  repeat match goal with |- _ /\ _ => split end; intros -> m; destruct m;
    unfold bh_step, bl_step, pb_step, st_step, pg_step, info_step, di_step, cs_step, pn_step, dn_step, pw_step, pr_step;
    repeat match goal with
    | |- context [t =? ?k] => destruct (Z.eqb_spec t k) as [->|]; [exfalso; apply H; vm_compute; tauto|]
    end; reflexivity.
Qed.

(** An unknown field anywhere in any message is skipped: the message parses as
    without it. *)
Theorem C32_unknown_fields_ignored : forall rt fs1 (u : field) fs2, Forall wf_field (fs1 ++ u :: fs2) ->
  (unknown header_nums u -> forall m, merge rt (bh_step rt) m (ser (fs1 ++ u :: fs2)) = merge rt (bh_step rt) m (ser (fs1 ++ fs2))) /\
  (unknown blob_nums u -> forall m, merge rt (bl_step rt) m (ser (fs1 ++ u :: fs2)) = merge rt (bl_step rt) m (ser (fs1 ++ fs2))) /\
  (unknown block_nums u -> forall m, merge rt (pb_step rt) m (ser (fs1 ++ u :: fs2)) = merge rt (pb_step rt) m (ser (fs1 ++ fs2))) /\
  (unknown strings_nums u -> forall m, merge rt (st_step rt) m (ser (fs1 ++ u :: fs2)) = merge rt (st_step rt) m (ser (fs1 ++ fs2))) /\
  (unknown group_nums u -> forall m, merge rt (pg_step rt) m (ser (fs1 ++ u :: fs2)) = merge rt (pg_step rt) m (ser (fs1 ++ fs2))) /\
  (unknown info_nums u -> forall m, merge rt (info_step rt) m (ser (fs1 ++ u :: fs2)) = merge rt (info_step rt) m (ser (fs1 ++ fs2))) /\
  (unknown dense_info_nums u -> forall m, merge rt (di_step rt) m (ser (fs1 ++ u :: fs2)) = merge rt (di_step rt) m (ser (fs1 ++ fs2))) /\
  (unknown change_set_nums u -> forall m, merge rt (cs_step rt) m (ser (fs1 ++ u :: fs2)) = merge rt (cs_step rt) m (ser (fs1 ++ fs2))) /\
  (unknown node_nums u -> forall m, merge rt (pn_step rt) m (ser (fs1 ++ u :: fs2)) = merge rt (pn_step rt) m (ser (fs1 ++ fs2))) /\
  (unknown dense_nums u -> forall m, merge rt (dn_step rt) m (ser (fs1 ++ u :: fs2)) = merge rt (dn_step rt) m (ser (fs1 ++ fs2))) /\
  (unknown way_nums u -> forall m, merge rt (pw_step rt) m (ser (fs1 ++ u :: fs2)) = merge rt (pw_step rt) m (ser (fs1 ++ fs2))) /\
  (unknown rel_nums u -> forall m, merge rt (pr_step rt) m (ser (fs1 ++ u :: fs2)) = merge rt (pr_step rt) m (ser (fs1 ++ fs2))).
Proof.
  intros rt fs1 u fs2 W.
  repeat match goal with |- _ /\ _ => split end; intros U m; apply merge_skip; try exact W; now apply (unknown_steps rt _ u U).
Qed.
Print Assumptions C32_unknown_fields_ignored.

(** The wire form itself, so that reader and writer do not merely agree with each
    other: a varint is the number in base 128, least significant group first, with
    the top bit set on all bytes but the last. *)
Fixpoint base128 (bs : bytes) : Z :=
  match bs with [] => 0 | b :: r => b mod 128 + 128 * base128 r end.
Fixpoint varint_shape (bs : bytes) : Prop :=
  match bs with
  | [] => False
  | [b] => 0 <= b < 128
  | b :: r => 128 <= b < 256 /\ varint_shape r
  end.

Lemma wv_spec : forall n v, (1 <= n)%nat -> 0 <= v < 128 ^ Z.of_nat n -> varint_shape (wv n v) /\ base128 (wv n v) = v.
Proof.
  induction n as [|n IH]; intros v Hn Hv; [lia|]. cbn [wv].
  destruct (v <? 128) eqn:E.
  - cbn. rewrite Z.mod_small; lia.
  - apply Z.ltb_ge in E. rewrite Nat2Z.inj_succ, Z.pow_succ_r in Hv by lia.
    destruct n as [|n]; [cbn in Hv; lia|].
    pose proof (Z.mod_pos_bound v 128). pose proof (Z.div_mod v 128).
    assert (0 <= v / 128 < 128 ^ Z.of_nat (S n)) as D
      by (split; [apply Z.div_pos; lia|apply Z.div_lt_upper_bound; lia]).
    destruct (IH (v / 128)) as (I1 & I2); [lia|exact D|].
    split.
    + cbn [varint_shape]. destruct (wv (S n) (v / 128)) as [|b r] eqn:Ew; [easy|]. split; [lia|exact I1].
    + cbn [base128]. rewrite I2. replace ((v mod 128 + 128) mod 128) with (v mod 128); [lia|].
      replace (v mod 128 + 128) with (v mod 128 + 1 * 128) by lia. rewrite Z.mod_add, Z.mod_mod; lia.
Qed.

Lemma rv_cons rt l sh acc b r : rv rt (S l) sh acc (b :: r) =
  if (Nat.eqb l 0) && strict_tenth rt && (1 <? b mod 128) then None
  else let acc' := acc + (b mod 128) * sh in
       if b <? 128 then Some (acc' mod 2^64, r) else rv rt l (sh * 128) acc' r.
Proof. reflexivity. Qed.

Lemma rv_base rt : forall n bs sh acc r, (length bs <= n)%nat -> varint_shape bs ->
  (length bs = n -> base128 bs * 128 ^ (Z.of_nat (n - length bs)) < 2 * 128 ^ (Z.of_nat (n - 1))) ->
  rv rt n sh acc (bs ++ r) = Some ((acc + base128 bs * sh) mod 2^64, r).
Proof.
  induction n as [|n IH]; intros bs sh acc r Hl Hs Hb.
  - destruct bs; [easy|]. cbn in Hl. lia.
  - destruct bs as [|b bs]; [easy|]. cbn [length] in Hl, Hb.
    destruct bs as [|c bs].
    + cbn [varint_shape] in Hs. change ([b] ++ r) with (b :: r). rewrite rv_cons. cbv zeta. rewrite (Z.mod_small b 128) by lia.
      replace ((n =? 0)%nat && strict_tenth rt && (1 <? b)) with false.
      * replace (b <? 128) with true by lia. cbn [base128]. rewrite (Z.mod_small b 128) by lia. f_equal. f_equal. f_equal. lia.
      * destruct n; [|easy]. cbn [Nat.eqb andb]. cbn in Hb. rewrite (Z.mod_small b 128) in Hb by lia. destruct (strict_tenth rt); [|easy]. lia.
    + destruct Hs as (Hb1 & Hs). fold varint_shape in Hs.
      destruct n as [|n]; [cbn in Hl; lia|].
      change ((b :: c :: bs) ++ r) with (b :: ((c :: bs) ++ r)). rewrite rv_cons. cbn [Nat.eqb andb]. cbv zeta.
      replace (b <? 128) with false by lia.
      rewrite IH; [|lia|exact Hs|].
      * cbn [base128]. fold base128. f_equal. f_equal. f_equal. lia.
      * intros E. specialize (Hb ltac:(lia)). cbn [base128 length] in *. 
        replace (S (S n) - S (S (length bs)))%nat with 0%nat in Hb by lia.
        replace (S n - S (length bs))%nat with 0%nat by lia. rewrite Z.pow_0_r, Z.mul_1_r in *.
        replace (S (S n) - 1)%nat with (S n) in Hb by lia. replace (S n - 1)%nat with n by lia.
        rewrite (Nat2Z.inj_succ n), Z.pow_succ_r in Hb by lia.
        pose proof (Z.mod_pos_bound b 128 ltac:(lia)). lia.
Qed.

Theorem C32_varints : forall rt,
  (forall v, in_u64 v -> varint_shape (varint v) /\ base128 (varint v) = v) /\
  (forall bs r, varint_shape bs -> (length bs <= 10)%nat -> base128 bs < 2^64 ->
     read_varint rt (bs ++ r) = Some (base128 bs, r)).
Proof.
  intros rt. split.
  - intros v Hv. apply wv_spec; [lia|]. unfold in_u64 in Hv. change (128 ^ Z.of_nat 10) with (2^70). lia.
  - intros bs r Hs Hl Hv. unfold read_varint. rewrite rv_base; [|exact Hl|exact Hs|].
    + f_equal. f_equal. rewrite Z.mod_small; [lia|].
      assert (0 <= base128 bs); [|lia]. clear. induction bs as [|b bs IH]; cbn [base128]; [lia|].
      pose proof (Z.mod_pos_bound b 128 ltac:(lia)). lia.
    + intros ->. change (Z.of_nat (10 - 10)) with 0. change (2 * 128 ^ Z.of_nat (10 - 1)) with (2^64). lia.
Qed.
Print Assumptions C32_varints.

(** Signed fields: two's complement in 64 bits, or zig-zag (0, -1, 1, -2, ...); booleans
    are 0 and 1. *)
Theorem C32_scalars : forall rt v,
  (in_i64 v -> 0 <= enc_i64 v < 2^64 /\ (enc_i64 v = v \/ enc_i64 v = v + 2^64) /\ dec_i64 rt (enc_i64 v) = Some v) /\
  (in_i32 v -> 0 <= enc_i32 v < 2^64 /\ (enc_i32 v = v \/ enc_i32 v = v + 2^64) /\ dec_i32 rt (enc_i32 v) = Some v) /\
  (in_i64 v -> (0 <= v -> enc_s64 v = 2 * v) /\ (v < 0 -> enc_s64 v = - 2 * v - 1) /\ dec_s64 rt (enc_s64 v) = Some v) /\
  (in_i32 v -> (0 <= v -> enc_s32 v = 2 * v) /\ (v < 0 -> enc_s32 v = - 2 * v - 1) /\ dec_s32 rt (enc_s32 v) = Some v) /\
  (in_u32 v -> enc_u32 v = v /\ dec_u32 rt (enc_u32 v) = Some v) /\
  (enc_bool false = 0 /\ enc_bool true = 1 /\ forall b, dec_bool rt (enc_bool b) = Some b).
Proof.
  intros rt v.
  assert (T : in_i64 v -> 0 <= as_u64 v < 2^64 /\ (as_u64 v = v \/ as_u64 v = v + 2^64)).
  { unfold in_i64, as_u64. intros H. split; [apply Z.mod_pos_bound; lia|].
    destruct (Z.lt_ge_cases v 0); [right|left; apply Z.mod_small; lia].
    symmetry. apply Z.mod_unique with (q := -1); lia. }
  assert (Z1 : 0 <= v -> zigzag v = 2 * v) by (intros; unfold zigzag; replace (0 <=? v) with true by lia; easy).
  assert (Z2 : v < 0 -> zigzag v = - 2 * v - 1) by (intros; unfold zigzag; replace (0 <=? v) with false by lia; easy).
  repeat match goal with |- _ /\ _ => split end; try reflexivity; intros H; repeat match goal with |- _ /\ _ => split end; try easy.
  all: try (apply T; unfold in_i32, in_i64 in *; lia).
  - now apply i64_ok.
  - now apply i32_ok.
  - now apply s64_ok.
  - now apply s32_ok.
  - now apply u32_ok.
  - apply bool_ok.
Qed.
Print Assumptions C32_scalars.

(** A concrete message: a way with tags, info and references, an unknown field in
    the middle of it. *)
Definition ex_rt := Pbrt true false true.
Definition ex_way := PWay (Some 17) [1; 2] [3; 300] (Some (Info (Some 3) (Some 1500000000) (Some 99) (Some 7) (Some 4) (Some true)))
  [100; -1; 2^40].
Example C32_example :
  ok_way ex_way /\ fits (pw_fields ex_way) /\
  merge ex_rt (pw_step ex_rt) pw0 (ser (firstn 2 (pw_fields ex_way) ++ (8 * 77 + 2, WLen [1;2;3]) :: skipn 2 (pw_fields ex_way)))
  = Some ex_way /\
  unknown way_nums (8 * 77 + 2, WLen [1;2;3]) /\
  Forall wf_field (firstn 2 (pw_fields ex_way) ++ (8 * 77 + 2, WLen [1;2;3]) :: skipn 2 (pw_fields ex_way)) /\
  varint 300 = [172; 2].
Proof.
  split. { repeat split; try (repeat constructor; unfold in_i64, in_u32, in_i32; lia); cbn; unfold in_i64, in_u32, in_i32; lia. }
  split; [vm_compute; reflexivity|]. split; [vm_compute; reflexivity|].
  split. { unfold unknown. vm_compute. intuition discriminate. }
  split; [|reflexivity]. repeat constructor; vm_compute; intuition discriminate.
Qed.

(** ** C33 *)

(** The contents of a file: data blobs, and other blobs with any data. *)
Inductive item := Data (index : option bytes) (b : blob) | Other (type : str) (index : option bytes) (data : bytes).
Definition item_frame (i : item) : frame :=
  match i with
  | Data ix b => Frame (lit "OSMData") ix (ser_blob b)
  | Other t ix d => Frame t ix d
  end.
Definition item_ok (i : item) : Prop :=
  frame_ok (item_frame i) /\
  match i with
  | Data _ b => ok_blob b
  | Other t _ _ => t <> lit "OSMData"
  end.
Definition item_blob (i : item) : option blob := match i with Data _ b => Some b | Other _ _ _ => None end.

Lemma item_blobs rt is : Forall item_ok is -> data_blobs rt (map item_frame is) = Some (filter_map item_blob is).
Proof.
  induction 1 as [|i is (H1 & H2) _ IH]; [easy|]. cbn [map data_blobs filter_map]. destruct i as [ix b|t ix d]; cbn [item_blob item_frame] in *.
  - unfold is_data at 1. cbn [fr_type]. rewrite str_eqb_refl. cbn [fr_data].
    rewrite (blob_rt rt b H2).
    + now rewrite IH.
    + destruct H1 as (_ & H1 & _). cbn [fr_data] in H1. unfold fits. fold (ser_blob b). lia.
  - unfold is_data at 1. cbn [fr_type]. apply str_eqb_neq in H2. now rewrite H2.
Qed.

Lemma items_frames is : Forall item_ok is -> Forall frame_ok (map item_frame is).
Proof. induction 1 as [|i is (H1 & _) _ IH]; cbn; constructor; easy. Qed.

Theorem C33_data_blobs_in_order : forall rt is, Forall item_ok is ->
  Runs (next_blob rt) (file_bytes (map item_frame is)) (filter_map item_blob is) (Ret []).
Proof.
  intros rt is H. rewrite <- (app_nil_r (file_bytes _)), <- (app_nil_r (filter_map _ _)).
  apply runs_frames.
  - now apply items_frames.
  - now apply item_blobs.
  - apply Runs_end. apply next_blob_nil.
Qed.
Print Assumptions C33_data_blobs_in_order.

Definition ex_items : list item :=
  [ Other (lit "OSMHeader") None [1;2;3];
    Data (Some [9]) (Blob None (Some 5) (Some [120; 156]) None None);
    Other (lit "Future") (Some []) [];
    Data None (Blob (Some []) None None None None) ].
Example C33_example : Forall item_ok ex_items /\ length (file_bytes (map item_frame ex_items)) = 77%nat.
Proof.
  split; [|vm_compute; reflexivity].
  assert (V : forall s : string, Forall scalar (lit s) <-> forallb scalarb (lit s) = true).
  { intros s. rewrite forallb_forall, Forall_forall. split; intros H x Hx; apply scalarb_iff; auto. }
  repeat constructor; cbn [item_frame fr_type fr_data]; try (apply V; vm_compute; reflexivity); try (vm_compute; easy).
Qed.

(** ** C34 *)

(** What counts as noticing: the run does not end regularly. *)
Definition noticed {St} (r : outcome St) : Prop := r = Panic.

Lemma runs_cut rt is i q : Forall item_ok is -> item_ok i -> (4 <= length q < length (frame_bytes (item_frame i)))%nat ->
  (exists r, frame_bytes (item_frame i) = q ++ r) ->
  Runs (next_blob rt) (file_bytes (map item_frame is) ++ q) (filter_map item_blob is) Panic.
Proof.
  intros H (Hi & _) Hq Hr. rewrite <- (app_nil_r (filter_map _ _)). apply runs_frames.
  - now apply items_frames.
  - now apply item_blobs.
  - apply Runs_panic. now apply (cut_frame rt (item_frame i)).
Qed.

(** A file cut inside a blob, at least four bytes into it: every reader returns
    the objects of the blobs before the cut and then panics. *)
Theorem C34_truncation_noticed_partial : forall rt chk inflate flt is i q,
  Forall item_ok is -> item_ok i -> (4 <= length q < length (frame_bytes (item_frame i)))%nat ->
  (exists r, frame_bytes (item_frame i) = q ++ r) ->
  let src := file_bytes (map item_frame is) ++ q in
  (forall ls, Forall2 (fun b l => s_blob rt chk inflate flt b = Ret l) (filter_map item_blob is) ls ->
     Runs (s_next rt chk inflate) (SReader src [] flt) (concat ls) Panic) /\
  (forall ls, Forall2 (fun b l => a_blob rt chk inflate b = Ret l) (filter_map item_blob is) ls ->
     Runs (a_next rt chk inflate) (src, []) (concat ls) Panic) /\
  (forall ls, Forall2 (fun b l => p_blob rt chk inflate b = Ret l) (filter_map item_blob is) ls ->
     Runs (p_next rt chk inflate) (src, []) (concat ls) Panic).
Proof.
  intros rt chk inflate flt is i q H Hi Hq Hr src. pose proof (runs_cut rt is i q H Hi Hq Hr) as R.
  split; [|split]; intros ls Hl.
  - apply (s_next_runs rt chk inflate flt src [] (concat ls) Panic).
    exact (runs_buffered rt _ _ _ _ R ls [] Hl).
  - apply (a_next_runs rt chk inflate src [] (concat ls) Panic).
    exact (runs_buffered rt _ _ _ _ R ls [] Hl).
  - exact (runs_buffered rt _ _ _ _ R ls [] Hl).
Qed.
Print Assumptions C34_truncation_noticed_partial.

(** Cut inside the four-byte size that precedes every blob, the rest of the file is
    lost silently: the run ends exactly as on the shorter, complete file. *)
Theorem C34_truncation_refuted : forall rt is i q, Forall item_ok is -> item_ok i ->
  (1 <= length q < 4)%nat -> (exists r, frame_bytes (item_frame i) = q ++ r) ->
  Runs (next_blob rt) (file_bytes (map item_frame is) ++ q) (filter_map item_blob is) (Ret []).
Proof.
  intros rt is i q H _ Hq _. rewrite <- (app_nil_r (filter_map _ _)). apply runs_frames.
  - now apply items_frames.
  - now apply item_blobs.
  - apply Runs_end. apply cut_short. lia.
Qed.
Print Assumptions C34_truncation_refuted.

Example C34_example : exists i q r, item_ok i /\ frame_bytes (item_frame i) = q ++ r /\
  (4 <= length q < length (frame_bytes (item_frame i)))%nat.
Proof.
  destruct C33_example as (H & _). inv H. exists (Other (lit "OSMHeader") None [1;2;3]).
  exists (firstn 10 (frame_bytes (item_frame (Other (lit "OSMHeader") None [1;2;3])))),
         (skipn 10 (frame_bytes (item_frame (Other (lit "OSMHeader") None [1;2;3])))).
  split; [assumption|]. split; [now rewrite firstn_skipn|]. vm_compute. lia.
Qed.
