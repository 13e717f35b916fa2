(** C99, C100: the order of coordinates, and what texts mean. *)
From Coq Require Import String ZArith List Bool Lia Reals Lra.
From Flocq Require Import Core.Core IEEE754.BinarySingleNaN.
From Coq Require Import ZifyBool ZifyNat.
From Verif Require Import Base SpecNum Ints Coord CoordFacts SpecCoord CoordText PropsCoord.
Import ListNotations.
Open Scope Z_scope.

Lemma coord_clamped x : is_finite x = true -> coord_of_f64 x = clamp_coord (ZnearestA (rnd64 (B2R x * 10000000))).
Proof.
  intros H. destruct (C05_exact x H) as (A & B & C). cbv zeta in *. unfold clamp_coord.
  set (n := ZnearestA _) in *. destruct (2^31 - 1 <? n) eqn:Q1; [apply B; lia|].
  destruct (n <? - 2^31) eqn:Q2; [apply C; lia|]. apply A. unfold in_i32. lia.
Qed.

Lemma nearest_mono x y : (x <= y)%R ->
  ZnearestA (rnd64 (x * 10000000)) <= ZnearestA (rnd64 (y * 10000000)).
Proof.
  intros H. apply (@Zrnd_le _ valid_rnd_NA). apply round_le; [exact _|exact _|]. lra.
Qed.

(** ** C99 *)

(** Coordinates are ordered (src/lib.rs:100, derived from the inner i32) as their degrees
    are, as real numbers and as f64. *)
Theorem C99_degrees : forall a b, in_i32 a -> in_i32 b ->
  (a < b <-> (B2R (degrees a) < B2R (degrees b))%R) /\ f64_lt (degrees a) (degrees b) = (a <? b).
Proof.
  intros a b Ha Hb.
  destruct (degrees_correct a ltac:(unfold in_i32 in *; lia)) as (A1 & A2 & _).
  destruct (degrees_correct b ltac:(unfold in_i32 in *; lia)) as (B1 & B2 & _).
  assert (M : forall i j, in_i32 i -> in_i32 j -> i <= j -> (B2R (degrees i) <= B2R (degrees j))%R).
  { intros i j Hi Hj L. rewrite (proj1 (degrees_correct i ltac:(unfold in_i32 in *; lia))), (proj1 (degrees_correct j ltac:(unfold in_i32 in *; lia))).
    apply round_le; [exact _|exact _|]. apply IZR_le in L. lra. }
  assert (E : B2R (degrees a) = B2R (degrees b) -> a = b).
  { intros E. pose proof (C04_degrees_roundtrip a Ha) as Ra. pose proof (C04_degrees_roundtrip b Hb) as Rb.
    rewrite (coord_clamped _ A2), E, <- (coord_clamped _ B2), Rb in Ra. congruence. }
  assert (L : a < b <-> (B2R (degrees a) < B2R (degrees b))%R).
  { split.
    - intros L. destruct (M a b Ha Hb ltac:(lia)) as [Q|Q]; [exact Q|]. apply E in Q. lia.
    - intros L. destruct (Z_lt_le_dec a b) as [Q|Q]; [exact Q|]. apply (M b a Hb Ha) in Q. lra. }
  split; [exact L|]. unfold f64_lt. rewrite Bltb_correct by assumption.
  destruct (Rlt_bool_spec (B2R (degrees a)) (B2R (degrees b))) as [Q|Q]; [apply L in Q; lia|].
  destruct (a <? b) eqn:C; [|reflexivity]. apply Z.ltb_lt, L in C. lra.
Qed.
Print Assumptions C99_degrees.
Example C99_ex : in_i32 (-1800000000) /\ in_i32 899999999 /\ f64_lt (degrees 899999999) (degrees 900000000) = true.
Proof. unfold in_i32. repeat split; lia. Qed.

(** The results of a conversion in the order of the numbers they come from. *)
Definition not_above (r s : result Z) : Prop :=
  match r, s with
  | RErr TooSmall, _ | _, RErr TooLarge => True
  | ROk a, ROk b => a <= b
  | _, _ => False
  end.

(** A larger number of degrees never gives a smaller coordinate, and fails as too large if
    a smaller one does. *)
Theorem C99_conversion : forall x y, is_finite x = true -> is_finite y = true -> (B2R x <= B2R y)%R ->
  not_above (coord_of_f64 x) (coord_of_f64 y).
Proof.
  intros x y Hx Hy L. rewrite !coord_clamped by assumption. apply nearest_mono in L.
  set (n := ZnearestA (rnd64 (B2R x * 10000000))) in *. set (m := ZnearestA (rnd64 (B2R y * 10000000))) in *.
  unfold clamp_coord.
  destruct (2^31 - 1 <? n) eqn:N1; [|destruct (n <? - 2^31) eqn:N2];
  (destruct (2^31 - 1 <? m) eqn:M1; [|destruct (m <? - 2^31) eqn:M2]); cbn; try exact I; lia.
Qed.
Print Assumptions C99_conversion.
Example C99_conversion_ex : is_finite (degrees 7) = true /\ not_above (ROk 3) (ROk 4) /\ ~ not_above (ROk 4) (ROk 3) /\ not_above (ROk 4) (RErr TooLarge).
Proof. cbn. repeat split; lia. Qed.

(** ** C100 *)

(** The real number a decimal text stands for. *)
Definition text_value (neg : bool) (m e : Z) : R := signed neg (IZR m * bpow radix10 e)%R.

Lemma from_number_text s neg m e : NumberText s neg m e -> coord_from_str s = coord_of_f64 (f64_of_dec neg m e).
Proof.
  intros H. apply (proj1 (C05_from_str s)). apply C05_number_texts. left. now exists neg, m, e.
Qed.
Lemma number_nonneg s neg m e : NumberText s neg m e -> 0 <= m.
Proof.
  intros (sg & ip & dot & fp & ex & x & _ & _ & Hi & Hf & _ & _ & _ & -> & _). apply dec_value_nonneg. now apply Forall_app.
Qed.

Lemma dec_value_of_text neg m e : 0 <= m ->
  if Rlt_bool (Rabs (rnd64 (text_value neg m e))) (bpow radix2 1024) then
    B2R (f64_of_dec neg m e) = rnd64 (text_value neg m e) /\ is_finite (f64_of_dec neg m e) = true
  else 0 < m /\ f64_of_dec neg m e = B754_infinity neg.
Proof.
  intros Hm. destruct (Z.eq_dec m 0) as [->|Hn].
  - assert (E : text_value neg 0 e = 0%R) by (unfold text_value, signed; destruct neg; ring).
    rewrite E, round_0, Rabs_R0 by exact _. rewrite Rlt_bool_true by apply bpow_gt_0. split; reflexivity.
  - pose proof (f64_of_dec_correct neg m e ltac:(lia)) as G. cbv zeta in G. fold (text_value neg m e) in G.
    unfold dec_real in G. fold (text_value neg m e) in G.
    destruct (Rlt_bool _ _); [tauto|]. split; [lia|exact G].
Qed.
Lemma text_sign (neg : bool) m e : 0 < m -> if neg then (text_value neg m e < 0)%R else (0 < text_value neg m e)%R.
Proof.
  intros H. assert (0 < IZR m * bpow radix10 e)%R by (apply Rmult_lt_0_compat; [apply IZR_lt; lia|apply bpow_gt_0]).
  destruct neg; cbn [text_value signed]; unfold text_value, signed; lra.
Qed.

(** A text with at most seven decimals, however it is written: if it stands for the whole
    number [n] of 10^-7 degrees, it is read as exactly [n]; if that does not fit, it fails
    on the right side. *)
Theorem C100_seven_decimals : forall s neg m e n, NumberText s neg m e ->
  (text_value neg m e * 10000000 = IZR n)%R ->
  (in_i32 n -> coord_from_str s = ROk n) /\
  (2^31 <= n -> coord_from_str s = RErr TooLarge) /\
  (n < - 2^31 -> coord_from_str s = RErr TooSmall).
Proof.
  intros s neg m e n H E. rewrite (from_number_text s neg m e H). apply number_nonneg in H.
  pose proof (dec_value_of_text neg m e H) as G.
  assert (Ev : text_value neg m e = (IZR n / 10000000)%R) by lra.
  assert (D : forall k, Z.abs k < 2^53 -> coord_of_f64 (degrees k) = clamp_coord (ZnearestA (rnd64 (rnd64 (IZR k / 10000000) * 10000000)))).
  { intros k Hk. destruct (degrees_correct k Hk) as (A & B & _). now rewrite coord_clamped, A. }
  destruct (Rlt_bool_spec (Rabs (rnd64 (text_value neg m e))) (bpow radix2 1024)) as [Q|Q].
  - destruct G as (G1 & G2). rewrite (coord_clamped _ G2), G1, Ev. clear G1 G2 Q.
    assert (M : forall k j, k <= j -> ZnearestA (rnd64 (rnd64 (IZR k / 10000000) * 10000000)) <= ZnearestA (rnd64 (rnd64 (IZR j / 10000000) * 10000000))).
    { intros k j L. apply nearest_mono. apply round_le; [exact _|exact _|]. apply IZR_le in L. lra. }
    split; [|split].
    + intros Hn. rewrite <- D by (unfold in_i32 in Hn; lia). now apply C04_degrees_roundtrip.
    + intros Hn. pose proof (D (2^31) ltac:(lia)) as D1. assert (C1 : coord_of_f64 (degrees (2^31)) = RErr TooLarge) by (vm_compute; reflexivity).
      rewrite C1 in D1. specialize (M _ _ Hn). revert D1 M. generalize (ZnearestA (rnd64 (rnd64 (IZR (2 ^ 31) / 10000000) * 10000000))).
      generalize (ZnearestA (rnd64 (rnd64 (IZR n / 10000000) * 10000000))). intros a b D1 M. unfold clamp_coord in *.
      destruct (2^31 - 1 <? b) eqn:Q1; [|destruct (b <? - 2^31); discriminate]. now replace (2^31 - 1 <? a) with true by lia.
    + intros Hn. pose proof (D (- 2^31 - 1) ltac:(lia)) as D1.
      assert (C1 : coord_of_f64 (degrees (- 2^31 - 1)) = RErr TooSmall) by (vm_compute; reflexivity).
      rewrite C1 in D1. specialize (M n (- 2^31 - 1) ltac:(lia)). revert D1 M. generalize (ZnearestA (rnd64 (rnd64 (IZR (- 2 ^ 31 - 1) / 10000000) * 10000000))).
      generalize (ZnearestA (rnd64 (rnd64 (IZR n / 10000000) * 10000000))). intros a b D1 M. unfold clamp_coord in *.
      destruct (2^31 - 1 <? b) eqn:Q1; [discriminate|]. destruct (b <? - 2^31) eqn:Q2; [|discriminate].
      replace (2^31 - 1 <? a) with false by lia. now replace (a <? - 2^31) with true by lia.
  - destruct G as (Hm & ->). pose proof (text_sign neg m e Hm) as S.
    assert (Big : (IZR (2^40) < Rabs (IZR n))%R).
    { apply Rnot_le_lt. intros L. pose proof big_bpow as B.
      assert (Rabs (rnd64 (text_value neg m e)) <= IZR (2^40))%R; [|lra].
      apply rnd_abs_le_Z; [lia|]. rewrite Ev. unfold Rdiv. rewrite Rabs_mult, (Rabs_right (/ 10000000)) by lra. pose proof (Rabs_pos (IZR n)). lra. }
    rewrite <- abs_IZR in Big. apply lt_IZR in Big. destruct C05_infinite as (I1 & I2).
    rewrite Ev in S. unfold in_i32. destruct neg; rewrite ?I1, ?I2.
    + assert (IZR n < IZR 0)%R as S' by lra. apply lt_IZR in S'. split; [lia|]. split; [lia|reflexivity].
    + assert (IZR 0 < IZR n)%R as S' by lra. apply lt_IZR in S'. split; [lia|]. split; [reflexivity|lia].
Qed.
Print Assumptions C100_seven_decimals.
Example C100_ex : NumberText (lit "+00.12345670e2") false 12345670 (-6) /\ (text_value false 12345670 (-6) * 10000000 = IZR 123456700)%R /\
  in_i32 123456700 /\ coord_from_str (lit "+00.12345670e2") = ROk 123456700.
Proof.
  split; [|split; [|split; [unfold in_i32; lia|reflexivity]]].
  - exists (lit "+"), (lit "00"), (lit "."), (lit "12345670"), (lit "e2"), 2.
    split; [reflexivity|]. split; [constructor|].
    split; [repeat constructor; unfold is_digit; cbn; lia|]. split; [repeat constructor; unfold is_digit; cbn; lia|].
    split; [discriminate|]. split; [now left|]. split; [|split; reflexivity].
    apply (Exp_some (chr "e") [] false (lit "2")); [now left|constructor|discriminate|].
    repeat constructor; unfold is_digit; cbn; lia.
  - unfold text_value, signed. rewrite bpow10_neg by lia. change (10 ^ - -6) with 1000000. lra.
Qed.

(** Any number text: the coordinate is within half a unit, and 5e-7 of a unit for the two
    roundings to binary64, of the real number the text stands for. *)
Theorem C100_any_text : forall s neg m e, NumberText s neg m e ->
  let v := (text_value neg m e * 10000000)%R in
  match coord_from_str s with
  | ROk i => in_i32 i /\ (Rabs (IZR i - v) <= / 2 + / 2000000)%R
  | RErr TooLarge => (2147483648 - / 2 - / 2000000 <= v)%R
  | RErr TooSmall => (v <= - 2147483648 - / 2 + / 2000000)%R
  | RErr ParseFloat => False
  end.
Proof.
  intros s neg m e H v. subst v. rewrite (from_number_text s neg m e H). apply number_nonneg in H.
  pose proof (dec_value_of_text neg m e H) as G. set (v := text_value neg m e) in *.
  assert (Small : (Rabs v < 256)%R -> (Rabs (rnd64 v - v) <= / 70368744177664)%R).
  { intros Hv. pose proof (rnd_err 8 v ltac:(lia) Hv) as R. now rewrite bpow_m46 in R. }
  assert (Large : (256 <= Rabs v)%R -> (256 <= Rabs (rnd64 v))%R).
  { intros Hv. apply abs_round_ge_generic; [exact _|exact _| |exact Hv]. apply (format_Z 256). lia. }
  assert (Sg : ((0 <= v -> 0 <= rnd64 v) /\ (v <= 0 -> rnd64 v <= 0))%R).
  { split; intros Hv; rewrite <- (round_0 radix2 fexp64 ZnearestE); (apply round_le; [exact _|exact _|exact Hv]). }
  destruct Sg as (Sg1 & Sg2).
  destruct (Rlt_bool_spec (Rabs (rnd64 v)) (bpow radix2 1024)) as [Q|Q].
  - destruct G as (G1 & G2). pose proof (C05_bounds _ G2) as B. cbv zeta in B. rewrite G1 in B.
    destruct (Rlt_le_dec (Rabs v) 256) as [L|L].
    + apply Small in L. apply Rabs_le_inv in L. destruct (coord_of_f64 _) as [i|[]]; [|lra|lra|exact B].
      destruct B as (B1 & B2). split; [exact B1|]. apply Rabs_le_inv in B2. apply Rabs_le. lra.
    + pose proof (Large L) as L'. destruct (coord_of_f64 _) as [i|[]]; [| | |exact B].
      * destruct B as (B1 & B2). exfalso. apply Rabs_le_inv in B2. unfold in_i32 in B1. destruct B1 as (B3 & B4).
        apply IZR_le in B3. assert (B5 : i <= 2^31 - 1) by lia. apply IZR_le in B5.
        change (IZR (- 2^31)) with (-2147483648)%R in B3. change (IZR (2^31 - 1)) with 2147483647%R in B5.
        assert (Rabs (rnd64 v) <= 215)%R by (apply Rabs_le; lra). lra.
      * destruct (Rle_dec 0 v) as [P|P]; [rewrite Rabs_right in L by lra; lra|]. specialize (Sg2 ltac:(lra)). lra.
      * destruct (Rle_dec 0 v) as [P|P]; [specialize (Sg1 P); lra|]. rewrite Rabs_left in L by lra. lra.
  - destruct G as (Hm & ->). pose proof (text_sign neg m e Hm) as S. fold v in S. pose proof big_bpow as B.
    assert (Big : (IZR (2^40) < Rabs v)%R).
    { apply Rnot_le_lt. intros L. pose proof (rnd_abs_le_Z (2^40) v ltac:(lia) L). lra. }
    change (IZR (2^40)) with 1099511627776%R in Big. destruct C05_infinite as (I1 & I2).
    destruct neg; rewrite ?I1, ?I2; [rewrite Rabs_left in Big by exact S|rewrite Rabs_right in Big by lra]; lra.
Qed.
Print Assumptions C100_any_text.
