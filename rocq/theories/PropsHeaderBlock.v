(** Property C80, for the header block: which bytes parse, and which messages are
    refused. *)
From Coq Require Import String ZArith List Bool Lia.
From Coq Require Import ZifyBool ZifyNat.
From Verif Require Import Base Utf8 PbWire PbMsg PbMsgFacts PbSize SpecWire SpecHeaderBlock PropsPbfFile PropsPbfWire WireExact PropsPbSize.
Import ListNotations.
Open Scope Z_scope.

Lemma hb_commutes rt : commutes (hb_step rt).
Proof. unfold commutes, hb_step. commute_tac; commute_end. Qed.
Lemma hk_commutes rt : commutes (hk_step rt).
Proof. unfold commutes, hk_step. commute_tac; commute_end. Qed.

Section Many.
Context {M : Type} (step : M -> field -> option M) (n : Z).
Lemma fold_many {A} (val : A -> bytes -> Prop) (dec : bytes -> option A) (add : list A -> M -> M) fs l m m' :
  others_ignored step n [2] ->
  (forall m b, step m (8 * n + 2, WLen b) = on_len dec (fun x => add [x] m) (WLen b)) ->
  (forall x b, val x b -> dec b = Some x) ->
  (forall x y m, add y (add x m) = add (x ++ y) m) -> (forall m, add [] m = m) ->
  repeated_field n val l fs -> add l m = m' -> fold_opt step m (numbered n fs) = Some m'.
Proof.
  intros Ho; rewrite (fold_typed _ _ _ fs Ho); clear Ho. intros Hs Hd Hadd H0 (bss & -> & F) E. revert m E.
  induction F as [|x b l bss Hx _ IH]; intros m E; cbn [map fold_opt].
  - now rewrite <- E, H0.
  - rewrite Hs. cbn [on_len]. rewrite (Hd _ _ Hx). cbn [opt_map opt_bind]. apply IH. now rewrite Hadd.
Qed.
Lemma inv_many {A} (val : A -> bytes -> Prop) (dec : bytes -> option A) (add : list A -> M -> M) fs m m' :
  others_ignored step n [2] ->
  (forall m b, step m (8 * n + 2, WLen b) = on_len dec (fun x => add [x] m) (WLen b)) ->
  (forall b x, dec b = Some x -> val x b) ->
  (forall x y m, add y (add x m) = add (x ++ y) m) -> (forall m, add [] m = m) ->
  Forall sound fs -> fold_opt step m (numbered n fs) = Some m' -> exists l, repeated_field n val l fs /\ m' = add l m.
Proof.
  intros Ho Hs Hd Hadd H0 Hf H. rewrite (fold_typed step n [2] fs Ho) in H. apply (typed_len n) in Hf. unfold repeated_field.
  revert m H. induction Hf as [|f gs (b & -> & Hb) _ IH]; intros m H; cbn [fold_opt] in H.
  - injection H as <-. exists []. split; [exists []; split; [reflexivity|constructor]|now rewrite H0].
  - rewrite Hs in H. cbn [on_len] in H. destruct (dec b) as [x|] eqn:Ex; [|discriminate]. cbn [opt_map opt_bind] in H.
    destruct (IH _ H) as (l & (bss & E & F) & ->). exists (x :: l). split; [|now rewrite Hadd].
    exists (b :: bss). split; [cbn [map]; now rewrite E|]. constructor; [now apply Hd|exact F].
Qed.
End Many.

Definition hb_nums := [1; 2; 3; 4].
Definition hk_nums := [1; 4; 5; 16; 17; 32; 33; 34].
Ltac unk_with step := let t := fresh "t" in let w := fresh in let m := fresh in let U := fresh in
  intros [t w] m U; unfold unknown in U; cbn [fst] in U; destruct m; unfold step;
  repeat match goal with
  | |- context [t =? ?k] => destruct (Z.eqb_spec t k) as [->|]; [exfalso; apply U; vm_compute; tauto|]
  end; reflexivity.
Ltac unk_hb rt := unk_with hb_step.
Ltac unk_hk rt := unk_with hk_step.
Ltac othh :=
  let m := fresh in let t := fresh in let w := fresh in let Hn := fresh in let Hw := fresh in
  intros m t w Hn Hw; destruct m; unfold hb_step, hk_step;
  tag_cases t; try reflexivity; exfalso; first [discriminate Hn | apply Hw; cbn; tauto].

Lemma hb_any rt m fs : bbox_enc m fs -> fold_opt (hb_step rt) hb0 fs = Some m.
Proof.
  intros (H0 & H1 & H2 & H3). rewrite (fold_by_numbers (hb_step rt) (hb_commutes rt) hb_nums); [|nodup|unk_hb rt].
  cbn [hb_nums flat_map]. rewrite app_nil_r. destruct m as [x0 x1 x2 x3]. cbn [hb_left hb_right hb_top hb_bottom] in *.
  eapply fold_seq; [eapply (fold_scalar _ 1 rt sint64_v dec_s64 (fun x m => HeaderBBox (Some x) (hb_right m) (hb_top m) (hb_bottom m))) with (m' := HeaderBBox x0 None None None); [othh|intros []; reflexivity|apply v_sint64|reflexivity|exact H0|destruct x0; reflexivity]|].
  eapply fold_seq; [eapply (fold_scalar _ 2 rt sint64_v dec_s64 (fun x m => HeaderBBox (hb_left m) (Some x) (hb_top m) (hb_bottom m))) with (m' := HeaderBBox x0 x1 None None); [othh|intros []; reflexivity|apply v_sint64|reflexivity|exact H1|destruct x1; reflexivity]|].
  eapply fold_seq; [eapply (fold_scalar _ 3 rt sint64_v dec_s64 (fun x m => HeaderBBox (hb_left m) (hb_right m) (Some x) (hb_bottom m))) with (m' := HeaderBBox x0 x1 x2 None); [othh|intros []; reflexivity|apply v_sint64|reflexivity|exact H2|destruct x2; reflexivity]|].
  eapply (fold_scalar _ 4 rt sint64_v dec_s64 (fun x m => HeaderBBox (hb_left m) (hb_right m) (hb_top m) (Some x))) with (m' := HeaderBBox x0 x1 x2 x3); [othh|intros []; reflexivity|apply v_sint64|reflexivity|exact H3|destruct x3; reflexivity].
Qed.
Lemma hb_inv fs m : Forall sound fs -> fold_opt (hb_step strict) hb0 fs = Some m -> bbox_enc m fs.
Proof.
  intros S H. rewrite (fold_by_numbers (hb_step strict) (hb_commutes strict) hb_nums) in H; [|nodup|unk_hb strict].
  cbn [hb_nums flat_map] in H. rewrite app_nil_r in H.
  apply inv_seq in H as (m0 & F0 & H).
  edestruct (inv_scalar (hb_step strict) 1 sint64_v dec_s64 (fun x m => HeaderBBox (Some x) (hb_right m) (hb_top m) (hb_bottom m)) (fun o => HeaderBBox o None None None) fs) as (x0 & G0 & E0);
    [othh|intros []; reflexivity|apply s64_inv|reflexivity|reflexivity|reflexivity|exact S|exact F0|].
  subst m0. cbn [hb0 hb_left hb_right hb_top hb_bottom app] in *.
  apply inv_seq in H as (m1 & F1 & H).
  edestruct (inv_scalar (hb_step strict) 2 sint64_v dec_s64 (fun x m => HeaderBBox (hb_left m) (Some x) (hb_top m) (hb_bottom m)) (fun o => HeaderBBox x0 o None None) fs) as (x1 & G1 & E1);
    [othh|intros []; reflexivity|apply s64_inv|reflexivity|reflexivity|reflexivity|exact S|exact F1|].
  subst m1. cbn [hb0 hb_left hb_right hb_top hb_bottom app] in *.
  apply inv_seq in H as (m2 & F2 & H).
  edestruct (inv_scalar (hb_step strict) 3 sint64_v dec_s64 (fun x m => HeaderBBox (hb_left m) (hb_right m) (Some x) (hb_bottom m)) (fun o => HeaderBBox x0 x1 o None) fs) as (x2 & G2 & E2);
    [othh|intros []; reflexivity|apply s64_inv|reflexivity|reflexivity|reflexivity|exact S|exact F2|].
  subst m2. cbn [hb0 hb_left hb_right hb_top hb_bottom app] in *.
  edestruct (inv_scalar (hb_step strict) 4 sint64_v dec_s64 (fun x m => HeaderBBox (hb_left m) (hb_right m) (hb_top m) (Some x)) (fun o => HeaderBBox x0 x1 x2 o) fs) as (x3 & G3 & E3);
    [othh|intros []; reflexivity|apply s64_inv|reflexivity|reflexivity|reflexivity|exact S|exact H|].
  subst m. cbn [hb0 hb_left hb_right hb_top hb_bottom app] in *.
  unfold bbox_enc. cbn [hb_left hb_right hb_top hb_bottom]. repeat match goal with |- _ /\ _ => split end; assumption.
Qed.
Lemma hk_any rt m fs : header_block_enc m fs -> fold_opt (hk_step rt) hk0 fs = Some m.
Proof.
  intros (H0 & H1 & H2 & H3 & H4 & H5 & H6 & H7). rewrite (fold_by_numbers (hk_step rt) (hk_commutes rt) hk_nums); [|nodup|unk_hk rt].
  cbn [hk_nums flat_map]. rewrite app_nil_r. destruct m as [x0 x1 x2 x3 x4 x5 x6 x7]. cbn [hk_bbox hk_required hk_optional hk_program hk_source hk_rep_time hk_rep_seq hk_rep_url] in *.
  eapply fold_seq; [eapply (fold_sub _ 1 rt (hb_step rt) hb0 bbox_enc hk_bbox (fun x m => HeaderBlock (Some x) (hk_required m) (hk_optional m) (hk_program m) (hk_source m) (hk_rep_time m) (hk_rep_seq m) (hk_rep_url m))) with (m' := HeaderBlock x0 [] [] None None None None None); [othh|intros []; reflexivity|reflexivity|reflexivity|apply hb_any|reflexivity|exact H0|destruct x0; reflexivity]|].
  eapply fold_seq; [eapply (fold_many _ 4 text_v utf8_decode (fun x m => HeaderBlock (hk_bbox m) (hk_required m ++ x) (hk_optional m) (hk_program m) (hk_source m) (hk_rep_time m) (hk_rep_seq m) (hk_rep_url m))) with (m' := HeaderBlock x0 x1 [] None None None None None); [othh|intros []; reflexivity|intros x b (Hx & ->); now apply utf8_decode_encode|intros x y []; cbn; now rewrite app_assoc|intros []; cbn; now rewrite app_nil_r|exact H1|reflexivity]|].
  eapply fold_seq; [eapply (fold_many _ 5 text_v utf8_decode (fun x m => HeaderBlock (hk_bbox m) (hk_required m) (hk_optional m ++ x) (hk_program m) (hk_source m) (hk_rep_time m) (hk_rep_seq m) (hk_rep_url m))) with (m' := HeaderBlock x0 x1 x2 None None None None None); [othh|intros []; reflexivity|intros x b (Hx & ->); now apply utf8_decode_encode|intros x y []; cbn; now rewrite app_assoc|intros []; cbn; now rewrite app_nil_r|exact H2|reflexivity]|].
  eapply fold_seq; [eapply (fold_blob _ 16 text_v utf8_decode (fun x m => HeaderBlock (hk_bbox m) (hk_required m) (hk_optional m) (Some x) (hk_source m) (hk_rep_time m) (hk_rep_seq m) (hk_rep_url m))) with (m' := HeaderBlock x0 x1 x2 x3 None None None None); [othh|intros []; reflexivity|intros x b (Hx & ->); now apply utf8_decode_encode|reflexivity|exact H3|destruct x3; reflexivity]|].
  eapply fold_seq; [eapply (fold_blob _ 17 text_v utf8_decode (fun x m => HeaderBlock (hk_bbox m) (hk_required m) (hk_optional m) (hk_program m) (Some x) (hk_rep_time m) (hk_rep_seq m) (hk_rep_url m))) with (m' := HeaderBlock x0 x1 x2 x3 x4 None None None); [othh|intros []; reflexivity|intros x b (Hx & ->); now apply utf8_decode_encode|reflexivity|exact H4|destruct x4; reflexivity]|].
  eapply fold_seq; [eapply (fold_scalar _ 32 rt int64_v dec_i64 (fun x m => HeaderBlock (hk_bbox m) (hk_required m) (hk_optional m) (hk_program m) (hk_source m) (Some x) (hk_rep_seq m) (hk_rep_url m))) with (m' := HeaderBlock x0 x1 x2 x3 x4 x5 None None); [othh|intros []; reflexivity|apply v_int64|reflexivity|exact H5|destruct x5; reflexivity]|].
  eapply fold_seq; [eapply (fold_scalar _ 33 rt int64_v dec_i64 (fun x m => HeaderBlock (hk_bbox m) (hk_required m) (hk_optional m) (hk_program m) (hk_source m) (hk_rep_time m) (Some x) (hk_rep_url m))) with (m' := HeaderBlock x0 x1 x2 x3 x4 x5 x6 None); [othh|intros []; reflexivity|apply v_int64|reflexivity|exact H6|destruct x6; reflexivity]|].
  eapply (fold_blob _ 34 text_v utf8_decode (fun x m => HeaderBlock (hk_bbox m) (hk_required m) (hk_optional m) (hk_program m) (hk_source m) (hk_rep_time m) (hk_rep_seq m) (Some x))) with (m' := HeaderBlock x0 x1 x2 x3 x4 x5 x6 x7); [othh|intros []; reflexivity|intros x b (Hx & ->); now apply utf8_decode_encode|reflexivity|exact H7|destruct x7; reflexivity].
Qed.
Lemma hk_inv fs m : Forall sound fs -> fold_opt (hk_step strict) hk0 fs = Some m -> header_block_enc m fs.
Proof.
  intros S H. rewrite (fold_by_numbers (hk_step strict) (hk_commutes strict) hk_nums) in H; [|nodup|unk_hk strict].
  cbn [hk_nums flat_map] in H. rewrite app_nil_r in H.
  apply inv_seq in H as (m0 & F0 & H).
  edestruct (inv_sub (hk_step strict) 1 (hb_step strict) hb0 bbox_enc hk_bbox (fun x m => HeaderBlock (Some x) (hk_required m) (hk_optional m) (hk_program m) (hk_source m) (hk_rep_time m) (hk_rep_seq m) (hk_rep_url m)) (fun o => HeaderBlock o [] [] None None None None None) fs) as (x0 & G0 & E0);
    [othh|intros []; reflexivity|reflexivity|reflexivity|apply hb_inv|reflexivity|reflexivity|reflexivity|exact S|exact F0|].
  subst m0. cbn [hk0 hk_bbox hk_required hk_optional hk_program hk_source hk_rep_time hk_rep_seq hk_rep_url app] in *.
  apply inv_seq in H as (m1 & F1 & H).
  edestruct (inv_many (hk_step strict) 4 text_v utf8_decode (fun x m => HeaderBlock (hk_bbox m) (hk_required m ++ x) (hk_optional m) (hk_program m) (hk_source m) (hk_rep_time m) (hk_rep_seq m) (hk_rep_url m)) fs) as (x1 & G1 & E1);
    [othh|intros []; reflexivity|intros b y Hy; apply utf8_decode_inv in Hy; unfold text_v; tauto|intros x y []; cbn; now rewrite app_assoc|intros []; cbn; now rewrite app_nil_r|exact S|exact F1|].
  subst m1. cbn [hk0 hk_bbox hk_required hk_optional hk_program hk_source hk_rep_time hk_rep_seq hk_rep_url app] in *.
  apply inv_seq in H as (m2 & F2 & H).
  edestruct (inv_many (hk_step strict) 5 text_v utf8_decode (fun x m => HeaderBlock (hk_bbox m) (hk_required m) (hk_optional m ++ x) (hk_program m) (hk_source m) (hk_rep_time m) (hk_rep_seq m) (hk_rep_url m)) fs) as (x2 & G2 & E2);
    [othh|intros []; reflexivity|intros b y Hy; apply utf8_decode_inv in Hy; unfold text_v; tauto|intros x y []; cbn; now rewrite app_assoc|intros []; cbn; now rewrite app_nil_r|exact S|exact F2|].
  subst m2. cbn [hk0 hk_bbox hk_required hk_optional hk_program hk_source hk_rep_time hk_rep_seq hk_rep_url app] in *.
  apply inv_seq in H as (m3 & F3 & H).
  edestruct (inv_blob (hk_step strict) 16 text_v utf8_decode (fun x m => HeaderBlock (hk_bbox m) (hk_required m) (hk_optional m) (Some x) (hk_source m) (hk_rep_time m) (hk_rep_seq m) (hk_rep_url m)) (fun o => HeaderBlock x0 x1 x2 o None None None None) fs) as (x3 & G3 & E3);
    [othh|intros []; reflexivity|intros b y Hy; apply utf8_decode_inv in Hy; unfold text_v; tauto|reflexivity|reflexivity|reflexivity|exact S|exact F3|].
  subst m3. cbn [hk0 hk_bbox hk_required hk_optional hk_program hk_source hk_rep_time hk_rep_seq hk_rep_url app] in *.
  apply inv_seq in H as (m4 & F4 & H).
  edestruct (inv_blob (hk_step strict) 17 text_v utf8_decode (fun x m => HeaderBlock (hk_bbox m) (hk_required m) (hk_optional m) (hk_program m) (Some x) (hk_rep_time m) (hk_rep_seq m) (hk_rep_url m)) (fun o => HeaderBlock x0 x1 x2 x3 o None None None) fs) as (x4 & G4 & E4);
    [othh|intros []; reflexivity|intros b y Hy; apply utf8_decode_inv in Hy; unfold text_v; tauto|reflexivity|reflexivity|reflexivity|exact S|exact F4|].
  subst m4. cbn [hk0 hk_bbox hk_required hk_optional hk_program hk_source hk_rep_time hk_rep_seq hk_rep_url app] in *.
  apply inv_seq in H as (m5 & F5 & H).
  edestruct (inv_scalar (hk_step strict) 32 int64_v dec_i64 (fun x m => HeaderBlock (hk_bbox m) (hk_required m) (hk_optional m) (hk_program m) (hk_source m) (Some x) (hk_rep_seq m) (hk_rep_url m)) (fun o => HeaderBlock x0 x1 x2 x3 x4 o None None) fs) as (x5 & G5 & E5);
    [othh|intros []; reflexivity|apply i64_inv|reflexivity|reflexivity|reflexivity|exact S|exact F5|].
  subst m5. cbn [hk0 hk_bbox hk_required hk_optional hk_program hk_source hk_rep_time hk_rep_seq hk_rep_url app] in *.
  apply inv_seq in H as (m6 & F6 & H).
  edestruct (inv_scalar (hk_step strict) 33 int64_v dec_i64 (fun x m => HeaderBlock (hk_bbox m) (hk_required m) (hk_optional m) (hk_program m) (hk_source m) (hk_rep_time m) (Some x) (hk_rep_url m)) (fun o => HeaderBlock x0 x1 x2 x3 x4 x5 o None) fs) as (x6 & G6 & E6);
    [othh|intros []; reflexivity|apply i64_inv|reflexivity|reflexivity|reflexivity|exact S|exact F6|].
  subst m6. cbn [hk0 hk_bbox hk_required hk_optional hk_program hk_source hk_rep_time hk_rep_seq hk_rep_url app] in *.
  edestruct (inv_blob (hk_step strict) 34 text_v utf8_decode (fun x m => HeaderBlock (hk_bbox m) (hk_required m) (hk_optional m) (hk_program m) (hk_source m) (hk_rep_time m) (hk_rep_seq m) (Some x)) (fun o => HeaderBlock x0 x1 x2 x3 x4 x5 x6 o) fs) as (x7 & G7 & E7);
    [othh|intros []; reflexivity|intros b y Hy; apply utf8_decode_inv in Hy; unfold text_v; tauto|reflexivity|reflexivity|reflexivity|exact S|exact H|].
  subst m. cbn [hk0 hk_bbox hk_required hk_optional hk_program hk_source hk_rep_time hk_rep_seq hk_rep_url app] in *.
  unfold header_block_enc. cbn [hk_bbox hk_required hk_optional hk_program hk_source hk_rep_time hk_rep_seq hk_rep_url]. repeat match goal with |- _ /\ _ => split end; assumption.
Qed.

Lemma header_block_init m : hk_init m = true <-> header_block_complete m.
Proof.
  unfold hk_init, header_block_complete. destruct (hk_bbox m) as [b|]; [|split; [discriminate|reflexivity]].
  unfold hb_init. rewrite !andb_true_iff, !some_present. split.
  - intros H b' E. injection E as <-. tauto.
  - intros H. specialize (H b eq_refl). tauto.
Qed.

(** Whatever bytes there are: they parse to a header block exactly if they are an
    encoding of it, with any order of fields, unknown fields and so on, and its box,
    if there is one, is complete. *)
Theorem C80_header_block : forall bs m, Forall byte bs ->
  (parse_header_block strict bs = Some m <->
   exists fs, message_bytes fs bs /\ header_block_enc m fs /\ header_block_complete m).
Proof.
  intros bs m Hb. unfold parse_header_block, checked_init. split.
  - destruct (merge strict (hk_step strict) hk0 bs) as [m'|] eqn:E; [|discriminate].
    destruct (hk_init m') eqn:Ei; [|discriminate]. intros H. injection H as <-. apply merge_inv in E as (fs & H1 & H2 & H3); [|exact Hb].
    exists fs. split; [exact H1|]. split; [now apply hk_inv|now apply header_block_init].
  - intros (fs & H1 & H2 & H3). rewrite (merge_any strict _ _ fs bs H1), (hk_any strict m fs H2).
    apply header_block_init in H3. now rewrite H3.
Qed.
Print Assumptions C80_header_block.

(** Serialising is refused exactly for the messages that lack a required field. *)
Lemma refused_iff {M} (init : M -> bool) (P : M -> Prop) size write (m : M) :
  (init m = true <-> P m) -> (write_to_bytes init size write m = Ret None <-> ~ P m).
Proof.
  intros H. unfold write_to_bytes. rewrite <- H. destruct (init m); [|split; [discriminate|reflexivity]].
  destruct (_ =? _); split; try discriminate; intros C; now destruct C.
Qed.
Theorem C80_required :
  (forall m, write_to_bytes bh_init bh_size bh_write m = Ret None <-> ~ header_complete m) /\
  (forall m, write_to_bytes hk_init hk_size hk_write m = Ret None <-> ~ header_block_complete m) /\
  (forall m, write_to_bytes pb_init pb_size pb_write m = Ret None <-> ~ block_complete m).
Proof.
  split; [|split]; intros m; apply refused_iff; [apply header_init|apply header_block_init|apply block_init].
Qed.
Print Assumptions C80_required.

(** A box given in two pieces, each incomplete; an unknown field; the features not in
    order; the source given twice. *)
Definition odd_hb : header_block :=
  HeaderBlock (Some (HeaderBBox (Some 1) (Some 2) (Some 3) (Some (-1)))) [lit "OsmSchema-V0.6"; lit "DenseNodes"] [lit "Sort"]
    None (Some (lit "b")) (Some (-1)) None None.
Definition odd_hb_bytes : bytes :=
  [10; 4; 16; 4; 8; 2] ++ [42; 4] ++ lit "Sort" ++ [34; 14] ++ lit "OsmSchema-V0.6" ++ [138; 1; 1] ++ lit "a" ++
  [138; 129; 0; 1] ++ lit "b" ++ [128; 2; 255; 255; 255; 255; 255; 255; 255; 255; 255; 1] ++ [24; 7] ++
  [10; 4; 24; 6; 32; 1] ++ [34; 10] ++ lit "DenseNodes".
Definition half_box : header_block := HeaderBlock (Some (HeaderBBox (Some 1) (Some 2) (Some 3) None)) [] [] None None None None None.
Example C80_header_block_example :
  (exists fs, message_bytes fs odd_hb_bytes /\ header_block_enc odd_hb fs /\ header_block_complete odd_hb) /\
  parse_header_block strict [10; 6; 8; 2; 16; 4; 24; 6] = None /\
  ~ header_block_complete half_box /\ write_to_bytes hk_init hk_size hk_write half_box = Ret None.
Proof.
  split; [|split; [reflexivity|split; [|reflexivity]]].
  - apply C80_header_block; [|reflexivity]. unfold odd_hb_bytes, byte.
    repeat (apply Forall_app; split); try (repeat constructor; lia); vm_compute; repeat constructor; discriminate.
  - intros H. destruct (H _ eq_refl) as (_ & _ & _ & x & E). discriminate E.
Qed.
