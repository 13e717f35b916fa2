(** Facts about coordinates (proofs only). *)
From Coq Require Import String ZArith List Bool Lia Reals Lra Psatz.
From Flocq Require Import Core.Core IEEE754.BinarySingleNaN.
From Coq Require Import ZifyBool ZifyNat.
From Verif Require Import Base SpecNum Ints Coord.
Import ListNotations.
Open Scope Z_scope.

Notation fexp64 := (SpecFloat.fexp 53 1024).
(** Rounding to the nearest binary64 number, ties to even, no exponent limit. *)
Notation rnd64 := (round radix2 fexp64 ZnearestE).

Global Instance p53 : Prec_gt_0 53 := eq_refl.
Global Instance pe53 : Prec_lt_emax 53 1024 := eq_refl.
Global Instance fv : Valid_exp fexp64 := fexp_correct 53 1024 p53.
Global Instance fm : Monotone_exp fexp64 := fexp_monotone 53 1024.

Lemma fexp64_eq : fexp64 = FLT_exp (-1074) 53.
Proof. reflexivity. Qed.

Lemma F2R0 i : F2R (Float radix2 i 0) = IZR i.
Proof. unfold F2R; cbn; ring. Qed.

Lemma format_Z i : (Z.abs i < 2^53)%Z -> generic_format radix2 fexp64 (IZR i).
Proof.
  intros H. rewrite fexp64_eq. apply generic_format_FLT.
  apply (FLT_spec _ _ _ _ (Float radix2 i 0)); [now rewrite F2R0|exact H|discriminate].
Qed.

Lemma bpow_lt_1024 i : (Z.abs i < 2^53)%Z -> (Rabs (IZR i) < bpow radix2 1024)%R.
Proof.
  intros H. rewrite <- abs_IZR. eapply Rlt_trans.
  - apply IZR_lt. exact H.
  - change (IZR (2^53)) with (bpow radix2 53). apply bpow_lt. lia.
Qed.

Lemma f64_of_Z_correct i : (Z.abs i < 2^53)%Z ->
  B2R (f64_of_Z i) = IZR i /\ is_finite (f64_of_Z i) = true /\ Bsign (f64_of_Z i) = (i <? 0).
Proof.
  intros H. unfold f64_of_Z.
  pose proof (binary_normalize_correct 53 1024 _ _ mode_NE i 0 false) as G. cbn zeta in G.
  rewrite F2R0 in G. change (round_mode mode_NE) with ZnearestE in G.
  rewrite round_generic in G; [|apply valid_rnd_N|now apply format_Z].
  rewrite Rlt_bool_true in G by now apply bpow_lt_1024.
  destruct G as (A & B & C). split; [exact A|]. split; [exact B|].
  etransitivity; [exact C|]. change 0%R with (IZR 0). rewrite Rcompare_IZR. unfold Z.ltb.
  destruct (i ?= 0); reflexivity.
Qed.

Lemma scale_correct : B2R scale_factor = 10000000%R /\ is_finite scale_factor = true /\ Bsign scale_factor = false.
Proof. apply (f64_of_Z_correct 10000000). lia. Qed.

(** Rounding error: half a unit in the last place. *)
Lemma rnd_err k y : (-1000 <= k)%Z -> (Rabs y < bpow radix2 k)%R ->
  (Rabs (rnd64 y - y) <= bpow radix2 (k - 54))%R.
Proof.
  intros Hk Hy. eapply Rle_trans; [apply error_le_half_ulp; exact _|].
  assert (ulp radix2 fexp64 y <= bpow radix2 (k - 53))%R.
  { destruct (Req_dec y 0) as [->|Hn].
    - rewrite fexp64_eq, ulp_FLT_0; [|exact _]. apply bpow_le. lia.
    - rewrite ulp_neq_0 by easy. apply bpow_le. unfold cexp. rewrite fexp64_eq. unfold FLT_exp.
      pose proof (mag_le_bpow radix2 y k Hn Hy). lia. }
  replace (k - 53)%Z with (k - 54 + 1)%Z in H by lia.
  rewrite bpow_plus in H. change (bpow radix2 1) with 2%R in H. 
  pose proof (bpow_ge_0 radix2 (k-54)). lra.
Qed.

Lemma rnd_abs_le_Z i y : (Z.abs i < 2^53)%Z -> (Rabs y <= IZR i)%R -> (Rabs (rnd64 y) <= IZR i)%R.
Proof. intros H Hy. apply abs_round_le_generic; [exact _|exact _|now apply format_Z|exact Hy]. Qed.

Lemma degrees_correct i : (Z.abs i < 2^53)%Z ->
  B2R (degrees i) = rnd64 (IZR i / 10000000) /\ is_finite (degrees i) = true /\ Bsign (degrees i) = (i <? 0).
Proof.
  intros H. unfold degrees, f64_div.
  destruct (f64_of_Z_correct i H) as (A & B & C). destruct scale_correct as (A' & B' & C').
  pose proof (Bdiv_correct 53 1024 _ _ mode_NE (f64_of_Z i) scale_factor) as G.
  rewrite A, A', B, C, C' in G. specialize (G ltac:(lra)).
  change (round_mode mode_NE) with ZnearestE in G.
  rewrite Rlt_bool_true in G.
  - destruct G as (G1 & G2 & G3). rewrite xorb_false_r in G3. split; [exact G1|]. split; [exact G2|].
    apply G3. clear -G2. destruct (Bdiv _ _ _); easy.
  - eapply Rle_lt_trans; [apply (rnd_abs_le_Z (Z.abs i)); [lia|]|].
    + rewrite abs_IZR. unfold Rdiv. rewrite Rabs_mult, (Rabs_right (/ 10000000)) by lra.
      pose proof (Rabs_pos (IZR i)). lra.
    + pose proof (bpow_lt_1024 i H) as G0. now rewrite <- abs_IZR in G0.
Qed.

Lemma mul_scale x : is_finite x = true ->
  if Rlt_bool (Rabs (rnd64 (B2R x * 10000000))) (bpow radix2 1024) then
    B2R (f64_mul x scale_factor) = rnd64 (B2R x * 10000000) /\ is_finite (f64_mul x scale_factor) = true
  else f64_mul x scale_factor = B754_infinity (Bsign x).
Proof.
  intros H. unfold f64_mul. destruct scale_correct as (A' & B' & C').
  pose proof (Bmult_correct 53 1024 _ _ mode_NE x scale_factor) as G.
  rewrite A', B', C', H in G. change (round_mode mode_NE) with ZnearestE in G.
  destruct (Rlt_bool _ _); [tauto|]. rewrite xorb_false_r in G. apply B2SF_inj. exact G.
Qed.

(** What the common match computes. *)
Definition clamp_coord (n : Z) : result Z :=
  if 2^31 - 1 <? n then RErr TooLarge else if n <? - 2^31 then RErr TooSmall else ROk n.

Lemma round_FIX0 rnd x : round radix2 (FIX_exp 0) rnd x = IZR (rnd x).
Proof.
  unfold round, scaled_mantissa, F2R, cexp, FIX_exp. cbn. now rewrite !Rmult_1_r.
Qed.

Lemma coord_of_product_finite x : is_finite x = true ->
  coord_of_product x = clamp_coord (ZnearestA (B2R x)).
Proof.
  intros H. unfold coord_of_product, clamp_coord, f64_lt, f64_round.
  destruct (Bnearbyint_correct 53 1024 _ mode_NA x) as (A & B & _).
  rewrite H in B. change (round_mode mode_NA) with ZnearestA in A. rewrite round_FIX0 in A.
  set (y := Bnearbyint mode_NA x) in *.
  destruct (f64_of_Z_correct (2^31 - 1) ltac:(lia)) as (A1 & B1 & _).
  destruct (f64_of_Z_correct (- 2^31) ltac:(lia)) as (A2 & B2 & _).
  rewrite !Bltb_correct, A, A1, A2 by easy.
  set (n := ZnearestA (B2R x)) in *.
  assert (Rlt_bool (IZR (2^31 - 1)) (IZR n) = (2^31 - 1 <? n)) as ->.
  { destruct (Rlt_bool_spec (IZR (2^31 - 1)) (IZR n)) as [G|G]; [apply lt_IZR in G|apply le_IZR in G]; lia. }
  assert (Rlt_bool (IZR n) (IZR (- 2^31)) = (n <? - 2^31)) as ->.
  { destruct (Rlt_bool_spec (IZR n) (IZR (- 2^31))) as [G|G]; [apply lt_IZR in G|apply le_IZR in G]; lia. }
  destruct (2^31 - 1 <? n) eqn:E1; [easy|]. destruct (n <? - 2^31) eqn:E2; [easy|]. f_equal.
  assert (Btrunc y = n) as Ht.
  { apply eq_IZR. rewrite Btrunc_correct, A, round_FIX0, Ztrunc_IZR by exact _. reflexivity. }
  unfold f64_as_i32. destruct y; try discriminate; rewrite Ht; lia.
Qed.

Lemma coord_of_product_inf s : coord_of_product (B754_infinity s) = RErr (if s then TooSmall else TooLarge).
Proof. destruct s; reflexivity. Qed.

Lemma coord_of_product_nan : coord_of_product B754_nan = ROk 0.
Proof. reflexivity. Qed.

Lemma ZnearestA_err x : (Rabs (IZR (ZnearestA x) - x) <= /2)%R.
Proof. rewrite Rabs_minus_sym. apply Znearest_half. Qed.

Lemma bpow_m46 : bpow radix2 (8 - 54) = (/ 70368744177664)%R.
Proof. reflexivity. Qed.
Lemma bpow_m22 : bpow radix2 (32 - 54) = (/ 4194304)%R.
Proof. reflexivity. Qed.

Lemma coord_degrees i : in_i32 i -> coord_of_f64 (degrees i) = ROk i.
Proof.
  intros Hi. unfold in_i32 in Hi. unfold coord_of_f64.
  assert (Habs : (Z.abs i <= 2^31)%Z) by lia.
  destruct (degrees_correct i ltac:(lia)) as (A & B & _).
  assert (HiR : (Rabs (IZR i) <= 2147483648)%R).
  { rewrite <- abs_IZR. apply (IZR_le _ (2^31)). exact Habs. }
  assert (Hx : (Rabs (IZR i / 10000000) < bpow radix2 8)%R).
  { unfold Rdiv. rewrite Rabs_mult, (Rabs_right (/ 10000000)) by lra. change (bpow radix2 8) with 256%R. lra. }
  pose proof (rnd_err 8 _ ltac:(lia) Hx) as E1. rewrite <- A in E1.
  rewrite bpow_m46 in E1.
  set (d := B2R (degrees i)) in *.
  assert (E2 : (Rabs (d * 10000000 - IZR i) <= / 100000)%R).
  { replace (d * 10000000 - IZR i)%R with ((d - IZR i / 10000000) * 10000000)%R by field.
    rewrite Rabs_mult, (Rabs_right 10000000) by lra. lra. }
  assert (Hp : (Rabs (d * 10000000) < bpow radix2 32)%R).
  { change (bpow radix2 32) with 4294967296%R.
    replace (d * 10000000)%R with (IZR i + (d * 10000000 - IZR i))%R by ring.
    eapply Rle_lt_trans; [apply Rabs_triang|]. lra. }
  pose proof (rnd_err 32 _ ltac:(lia) Hp) as E3.
  rewrite bpow_m22 in E3.
  assert (E4 : (Rabs (rnd64 (d * 10000000) - IZR i) < / 2)%R).
  { replace (rnd64 (d * 10000000) - IZR i)%R with ((rnd64 (d * 10000000) - d * 10000000) + (d * 10000000 - IZR i))%R by ring.
    eapply Rle_lt_trans; [apply Rabs_triang|]. lra. }
  pose proof (mul_scale (degrees i) B) as G. fold d in G.
  rewrite Rlt_bool_true in G.
  2:{ apply Rle_lt_trans with (IZR (2^33)); [|change (IZR (2^33)) with (bpow radix2 33); apply bpow_lt; lia].
      apply rnd_abs_le_Z; [lia|]. apply Rlt_le. eapply Rlt_trans; [exact Hp|].
      change (IZR (2^33)) with (bpow radix2 33). apply bpow_lt. lia. }
  destruct G as (G1 & G2). rewrite coord_of_product_finite by exact G2.
  rewrite G1. rewrite (Znearest_imp _ _ i) by exact E4.
  unfold clamp_coord. destruct (2^31 - 1 <? i) eqn:Q1; [lia|]. destruct (i <? - 2^31) eqn:Q2; [lia|easy].
Qed.

(** ** Reading decimals *)

Definition radix10 : radix := Build_radix 10 eq_refl.

(** The real number c * 10^e. *)
Definition dec_real (c e : Z) : R := (IZR c * bpow radix10 e)%R.

Definition signed (neg : bool) (x : R) : R := if neg then (- x)%R else x.

Lemma f64_ratio_correct neg p q :
  let x := signed neg (IZR (Zpos p) / IZR (Zpos q)) in
  if Rlt_bool (Rabs (rnd64 x)) (bpow radix2 1024) then
    B2R (f64_ratio neg p q) = rnd64 x /\ is_finite (f64_ratio neg p q) = true /\ Bsign (f64_ratio neg p q) = neg
  else f64_ratio neg p q = B754_infinity neg.
Proof.
  cbn zeta. unfold f64_ratio.
  destruct (Bdiv_correct_aux 53 1024 p53 pe53 mode_NE neg p 0 false q 0) as (V & G) eqn:E. clear E.
  cbn [proj1]. rewrite !F2R0 in G. cbn [cond_Zopp] in G.
  assert (signed neg (IZR (Zpos p) / IZR (Zpos q)) = IZR (cond_Zopp neg (Zpos p)) / IZR (Zpos q))%R as ->.
  { destruct neg; cbn [signed cond_Zopp]; [|easy]. rewrite opp_IZR. unfold Rdiv. ring. }
  change (round_mode mode_NE) with ZnearestE in G.
  destruct (Rlt_bool _ _).
  - destruct G as (A & B & C). split; [|split].
    + rewrite B2R_SF2B. exact A.
    + now rewrite is_finite_SF2B.
    + rewrite Bsign_SF2B. etransitivity; [exact C|apply xorb_false_r].
  - apply B2SF_inj. rewrite B2SF_SF2B. etransitivity; [exact G|]. now destruct neg.
Qed.

Lemma bpow10_nonneg e : 0 <= e -> bpow radix10 e = IZR (10 ^ e).
Proof. intros H. now rewrite <- IZR_Zpower. Qed.

Lemma bpow10_neg e : e < 0 -> bpow radix10 e = (/ IZR (10 ^ (- e)))%R.
Proof. intros H. rewrite <- (Z.opp_involutive e) at 1. rewrite bpow_opp, bpow10_nonneg by lia. easy. Qed.

Lemma f64_of_dec_correct neg c e : 0 < c ->
  let x := signed neg (dec_real c e) in
  if Rlt_bool (Rabs (rnd64 x)) (bpow radix2 1024) then
    B2R (f64_of_dec neg c e) = rnd64 x /\ is_finite (f64_of_dec neg c e) = true /\ Bsign (f64_of_dec neg c e) = neg
  else f64_of_dec neg c e = B754_infinity neg.
Proof.
  intros Hc. cbn zeta. unfold f64_of_dec, dec_real. destruct c as [|p|p]; try lia.
  destruct (0 <=? e) eqn:Ee.
  - rewrite bpow10_nonneg, <- mult_IZR by lia.
    pose proof (Z.pow_pos_nonneg 10 e ltac:(lia) ltac:(lia)).
    pose proof (f64_ratio_correct neg (Z.to_pos (Zpos p * 10 ^ e)) 1) as G. cbn zeta in G.
    rewrite Z2Pos.id in G by lia. replace (IZR (Z.pos p * 10 ^ e) / 1)%R with (IZR (Z.pos p * 10 ^ e)) in G by field.
    exact G.
  - rewrite bpow10_neg by lia.
    pose proof (Z.pow_pos_nonneg 10 (-e) ltac:(lia) ltac:(lia)).
    pose proof (f64_ratio_correct neg p (Z.to_pos (10 ^ (-e)))) as G. cbn zeta in G.
    rewrite Z2Pos.id in G by lia. exact G.
Qed.

Lemma degrees_is_dec i c e : in_i32 i -> i <> 0 -> 0 < c -> dec_real c e = (IZR (Z.abs i) / 10000000)%R ->
  f64_of_dec (i <? 0) c e = degrees i.
Proof.
  unfold in_i32. intros Hi Hn Hc E.
  destruct (degrees_correct i ltac:(lia)) as (A & B & C).
  pose proof (f64_of_dec_correct (i <? 0) c e Hc) as G. cbn zeta in G.
  assert (Ex : signed (i <? 0) (dec_real c e) = (IZR i / 10000000)%R).
  { rewrite E. destruct (i <? 0) eqn:Q; cbn [signed].
    - rewrite Z.abs_neq, opp_IZR by lia. unfold Rdiv. ring.
    - rewrite Z.abs_eq by lia. easy. }
  rewrite Ex, <- A in G.
  rewrite Rlt_bool_true in G.
  - destruct G as (G1 & G2 & G3). apply B2R_Bsign_inj; try easy. congruence.
  - apply abs_B2R_lt_emax.
Qed.

(** ** strip10 *)

Lemma strip10_spec fuel : forall c e c' e', 0 < c -> strip10 fuel c e = (c', e') ->
  0 < c' /\ e <= e' <= e + Z.of_nat fuel /\ c = c' * 10 ^ (e' - e) /\ (c < 10 ^ Z.of_nat fuel -> c' mod 10 <> 0).
Proof.
  induction fuel as [|f IH]; intros c e c' e' Hc; cbn [strip10].
  - intros [= <- <-]. replace (e - e) with 0 by lia. change (10 ^ 0) with 1. change (10 ^ Z.of_nat 0) with 1. lia.
  - destruct (c mod 10 =? 0) eqn:Em.
    + intros H. apply IH in H; [|Z.div_mod_to_equations; lia].
      destruct H as (A & B & C & D). split; [easy|]. split; [lia|].
      replace (e' - e) with (1 + (e' - (e + 1))) by lia. rewrite Z.pow_add_r by lia.
      split; [Z.div_mod_to_equations; lia|]. rewrite pow10_S. intros Hlt. apply D. Z.div_mod_to_equations; lia.
    + intros [= <- <-]. replace (e - e) with 0 by lia. change (10 ^ 0) with 1. lia.
Qed.

Lemma dec_real_shift c e j : 0 <= j -> dec_real (c * 10 ^ j) e = dec_real c (e + j).
Proof. intros H. unfold dec_real. rewrite mult_IZR, bpow_plus, (bpow10_nonneg j) by easy. ring. Qed.

Lemma strip10_real i c e : i <> 0 -> strip10 10 (Z.abs i) (-7) = (c, e) ->
  dec_real c e = (IZR (Z.abs i) / 10000000)%R.
Proof.
  intros Hn H. apply strip10_spec in H; [|lia]. destruct H as (A & B & C & _).
  rewrite C. replace e with (-7 + (e - -7)) at 1 by lia. rewrite <- dec_real_shift by lia.
  unfold dec_real. rewrite bpow10_neg by lia. reflexivity.
Qed.

(** ** The text *)

Definition no_digit (r : str) : Prop := match r with c :: _ => digitb c = false | [] => True end.

Lemma span_digits_app ds r : Forall is_digit ds -> no_digit r -> span_digits (ds ++ r) = (ds, r).
Proof.
  induction 1 as [|c ds Hc _ IH]; intros Hr; cbn [app span_digits].
  - destruct r as [|c r]; [easy|]. cbn in Hr. cbn [span_digits]. now rewrite Hr.
  - apply digitb_iff in Hc. rewrite Hc, IH by easy. easy.
Qed.

Lemma span_digits_all ds : Forall is_digit ds -> span_digits ds = (ds, []).
Proof. intros H. rewrite <- (app_nil_r ds) at 1. now apply span_digits_app. Qed.

Lemma dec_value_zeros n ds : dec_value (repeat 48 n ++ ds) = dec_value ds.
Proof. induction n; cbn [repeat app dec_value]; [easy|]. rewrite IHn. lia. Qed.

Lemma dec_value_trailing ds n : dec_value (ds ++ repeat 48 n) = dec_value ds * 10 ^ Z.of_nat n.
Proof.
  rewrite dec_value_app, repeat_length.
  replace (dec_value (repeat 48 n)) with 0; [lia|].
  rewrite <- (app_nil_r (repeat 48 n)), dec_value_zeros. reflexivity.
Qed.

Lemma Forall_digit_zeros n : Forall is_digit (repeat 48 n).
Proof. induction n; cbn; constructor; [unfold is_digit; lia|easy]. Qed.

Lemma f64_of_dec_shift neg c e : 0 < c -> 0 <= e -> f64_of_dec neg (c * 10 ^ e) 0 = f64_of_dec neg c e.
Proof.
  intros Hc He. pose proof (Z.pow_pos_nonneg 10 e ltac:(lia) He).
  assert (0 < c * 10 ^ e) by lia.
  unfold f64_of_dec at 1. destruct (c * 10 ^ e) as [|p|p] eqn:Q; try lia.
  cbn [Z.leb Z.compare]. rewrite Z.pow_0_r, Z.mul_1_r.
  unfold f64_of_dec. destruct c as [|d|d]; try lia. destruct (0 <=? e) eqn:Qe; [|lia].
  now rewrite Q.
Qed.

Lemma match_nonnil {B} (l : str) (x : B) (f : str -> B) :
  l <> [] -> match l with [] => x | a :: r => f (a :: r) end = f l.
Proof. now destruct l. Qed.

Lemma parse_positional neg c e : 0 < c ->
  parse_unsigned neg (positional c e) = Some (f64_of_dec neg c e) /\
  exists d r, positional c e = d :: r /\ is_digit d.
Proof.
  intros Hc. unfold positional. destruct (show_uint_spec c ltac:(lia)) as (A & B & C).
  set (ds := show_uint c) in *.
  destruct (0 <=? e) eqn:Ee.
  - split.
    + unfold parse_unsigned. rewrite span_digits_all by (apply Forall_app; split; [easy|apply Forall_digit_zeros]).
      cbn match. rewrite app_nil_r.
      rewrite (match_nonnil (ds ++ repeat 48 (Z.to_nat e)) None
        (fun l => match parse_exp [] with Some x => Some (f64_of_dec neg (dec_value l) (x - Z.of_nat (@length Z []))) | None => None end))
        by (destruct ds; easy).
      rewrite dec_value_trailing, C. rewrite Z2Nat.id by lia. cbn [parse_exp length Z.of_nat].
      now rewrite Z.sub_0_r, f64_of_dec_shift by lia.
    + destruct ds as [|d ds]; [easy|]. cbn. eexists _, _. split; [reflexivity|]. now inversion A.
  - set (k := Z.to_nat (- e)). destruct (length ds <=? k)%nat eqn:El.
    + split.
      * unfold parse_unsigned. change (lit "0." ++ repeat 48 (k - length ds) ++ ds) with
          ([48] ++ 46 :: (repeat 48 (k - length ds) ++ ds)).
        rewrite span_digits_app; [|constructor; [unfold is_digit; lia|constructor]|reflexivity].
        change (46 =? chr ".") with true. cbn match.
        rewrite span_digits_all by (apply Forall_app; split; [apply Forall_digit_zeros|easy]).
        cbn [app]. cbn [parse_exp]. cbn [dec_value]. rewrite dec_value_zeros, C.
        rewrite app_length, repeat_length.
        f_equal. f_equal; lia.
      * cbn. eexists _, _. split; [reflexivity|]. unfold is_digit; lia.
    + assert (Hk : (k < length ds)%nat) by lia.
      pose proof (firstn_skipn (length ds - k) ds) as Hfs.
      assert (A1 : Forall is_digit (firstn (length ds - k) ds)).
      { rewrite <- Hfs in A. now apply Forall_app in A. }
      assert (A2 : Forall is_digit (skipn (length ds - k) ds)).
      { rewrite <- Hfs in A. now apply Forall_app in A. }
      split.
      * unfold parse_unsigned. change (lit "." ++ ?r) with (46 :: r).
        rewrite span_digits_app; [|easy|reflexivity].
        change (46 =? chr ".") with true. cbn match.
        rewrite span_digits_all by easy. rewrite Hfs.
        rewrite (match_nonnil ds None
          (fun l => match parse_exp [] with Some x => Some (f64_of_dec neg (dec_value l) (x - Z.of_nat (length (skipn (length ds - k) ds)))) | None => None end))
          by easy.
        cbn [parse_exp]. rewrite C, skipn_length. f_equal. f_equal. lia.
      * destruct (firstn (length ds - k) ds) as [|d r] eqn:Q.
        { apply (f_equal (@length Z)) in Q. rewrite firstn_length in Q. cbn in Q. lia. }
        cbn. eexists _, _. split; [reflexivity|]. now inversion A1.
Qed.

Lemma read_signed_positional (neg : bool) c e : 0 < c ->
  f64_from_str ((if neg then lit "-" else []) ++ positional c e) = Some (f64_of_dec neg c e).
Proof.
  intros Hc. destruct (parse_positional neg c e Hc) as (A & d & r & E & Hd).
  unfold f64_from_str. destruct neg.
  - change (lit "-" ++ positional c e) with (45 :: positional c e).
    cbv beta iota. change (45 =? chr "-") with true. cbv beta iota. now rewrite A.
  - cbn [app]. rewrite E. unfold is_digit in Hd.
    destruct (d =? chr "-") eqn:Q1; [change (chr "-") with 45 in Q1; lia|].
    destruct (d =? chr "+") eqn:Q2; [change (chr "+") with 43 in Q2; lia|].
    rewrite <- E. now rewrite A.
Qed.

Lemma read_show_coord i : in_i32 i -> f64_from_str (show_coord i) = Some (degrees i).
Proof.
  intros Hi. unfold show_coord. destruct (i =? 0) eqn:E0.
  - assert (i = 0) by lia. subst. reflexivity.
  - destruct (strip10 10 (Z.abs i) (-7)) as [c e] eqn:Es.
    pose proof (strip10_real i c e ltac:(lia) Es) as Hr.
    apply strip10_spec in Es; [|lia]. destruct Es as (A & _).
    rewrite read_signed_positional by easy. f_equal. apply degrees_is_dec; lia || easy.
Qed.

Lemma coord_text_roundtrip i : in_i32 i -> coord_from_str (show_coord i) = ROk i.
Proof.
  intros Hi. unfold coord_from_str. rewrite read_show_coord by easy. now apply coord_degrees.
Qed.

(** ** Shortest decimals *)

Lemma show_digits_len fuel n : 0 < n -> n < 2 ^ Z.of_nat fuel ->
  10 ^ (Z.of_nat (length (show_digits fuel n [])) - 1) <= n.
Proof.
  revert n; induction fuel as [|f IH]; intros n H0 Hb; [cbn in Hb; lia|].
  cbn [show_digits]. destruct (n <? 10) eqn:E.
  - cbn [length]. change (10 ^ (Z.of_nat 1 - 1)) with 1. lia.
  - rewrite Nat2Z.inj_succ, Z.pow_succ_r in Hb by lia.
    rewrite show_digits_app, app_length. cbn [length].
    specialize (IH (n / 10) ltac:(Z.div_mod_to_equations; lia) ltac:(Z.div_mod_to_equations; lia)).
    destruct (length (show_digits f (n / 10) [])) as [|l] eqn:El.
    + cbn. Z.div_mod_to_equations; lia.
    + replace (Z.of_nat (S l + 1) - 1) with (Z.succ (Z.of_nat (S l) - 1)) by lia.
      rewrite Z.pow_succ_r by lia. Z.div_mod_to_equations; lia.
Qed.

Lemma show_uint_len n : 0 < n ->
  10 ^ (Z.of_nat (length (show_uint n)) - 1) <= n < 10 ^ Z.of_nat (length (show_uint n)) /\ (0 < length (show_uint n))%nat.
Proof.
  intros H. destruct (show_uint_spec n ltac:(lia)) as (A & B & C). split; [split|].
  - unfold show_uint. apply show_digits_len; [easy|].
    pose proof (Z.log2_nonneg n). rewrite Z2Nat.id by lia. apply Z.log2_spec. lia.
  - rewrite <- C at 1. now apply dec_value_bound.
  - destruct (show_uint n); [easy|cbn; lia].
Qed.

Lemma show_uint_len_mono a b : 0 < a -> a <= b -> (length (show_uint a) <= length (show_uint b))%nat.
Proof.
  intros Ha Hb. destruct (show_uint_len a Ha) as ((A & _) & P). destruct (show_uint_len b ltac:(lia)) as ((_ & B) & _).
  assert (10 ^ (Z.of_nat (length (show_uint a)) - 1) < 10 ^ Z.of_nat (length (show_uint b))) as Q by lia.
  apply Z.pow_lt_mono_r_iff in Q; lia.
Qed.

(** Two decimals of at most ten digits that read as the same (normal) binary64
    number are the same number. *)
Lemma ten_digits_unique (d : f64) c e c' e' :
  0 < c < 10^10 -> 0 < c' < 10^10 -> (bpow radix2 (-1022) <= Rabs (B2R d))%R -> is_finite d = true ->
  f64_of_dec false c e = d -> f64_of_dec false c' e' = d ->
  dec_real c e = dec_real c' e'.
Proof.
  intros Hc Hc' Hn Hf E E'.
  assert (Hread : forall c e, 0 < c -> f64_of_dec false c e = d ->
     (Rabs (B2R d - dec_real c e) <= / 2 * ulp radix2 fexp64 (B2R d))%R).
  { intros c0 e0 H0 E0. pose proof (f64_of_dec_correct false c0 e0 H0) as G. cbn zeta in G.
    destruct (Rlt_bool _ _).
    - destruct G as (G & _). rewrite E0 in G. cbn [signed] in G. rewrite G.
      apply error_le_half_ulp_round; exact _.
    - rewrite E0 in G. subst d. rewrite G in Hf. discriminate. }
  pose proof (Hread c e ltac:(lia) E) as B1. pose proof (Hread c' e' ltac:(lia) E') as B2. clear Hread.
  set (D := B2R d) in *. set (x := dec_real c e) in *. set (y := dec_real c' e') in *.
  assert (Hu : (ulp radix2 fexp64 D <= Rabs D * bpow radix2 (1 - 53))%R).
  { rewrite fexp64_eq. apply ulp_FLT_le. exact Hn. }
  change (bpow radix2 (1 - 53)) with (/ 4503599627370496)%R in Hu.
  assert (HD : (0 < Rabs D)%R). { eapply Rlt_le_trans; [|exact Hn]. apply bpow_gt_0. }
  assert (Px : (0 < x)%R). { unfold x, dec_real. apply Rmult_lt_0_compat; [apply IZR_lt; lia|apply bpow_gt_0]. }
  assert (Py : (0 < y)%R). { unfold y, dec_real. apply Rmult_lt_0_compat; [apply IZR_lt; lia|apply bpow_gt_0]. }
  assert (Hx : (Rabs D <= 2 * x)%R).
  { replace D with (x + (D - x))%R by ring. eapply Rle_trans; [apply Rabs_triang|]. rewrite (Rabs_right x) by lra.
    assert (Rabs (D - x) <= Rabs D / 2)%R by lra.
    assert (Rabs D <= x + Rabs (D - x))%R.
    { replace D with (x + (D - x))%R at 1 by ring. eapply Rle_trans; [apply Rabs_triang|]. rewrite (Rabs_right x); lra. }
    lra. }
  assert (Hy : (Rabs D <= 2 * y)%R).
  { assert (Rabs (D - y) <= Rabs D / 2)%R by lra.
    assert (Rabs D <= y + Rabs (D - y))%R.
    { replace D with (y + (D - y))%R at 1 by ring. eapply Rle_trans; [apply Rabs_triang|]. rewrite (Rabs_right y); lra. }
    lra. }
  assert (Hxy : (Rabs (x - y) <= Rabs D * / 4503599627370496)%R).
  { replace (x - y)%R with ((D - y) - (D - x))%R by ring. unfold Rminus at 1.
    eapply Rle_trans; [apply Rabs_triang|]. rewrite Rabs_Ropp. lra. }
  destruct (Req_dec x y) as [|Hne]; [easy|exfalso].
  assert (Hgrid : forall a f b g, 0 < a < 10^10 -> 0 < b -> f <= g -> dec_real a f <> dec_real b g ->
     (dec_real a f <= 10000000000 * Rabs (dec_real a f - dec_real b g))%R).
  { intros a f b g Ha Hb Hfg Hab.
    assert (dec_real b g = dec_real (b * 10 ^ (g - f)) f) as Eb.
    { rewrite dec_real_shift by lia. f_equal. lia. }
    rewrite Eb in *. unfold dec_real in *.
    rewrite <- Rmult_minus_distr_r, Rabs_mult, (Rabs_right (bpow radix10 f)) by (apply Rle_ge, bpow_ge_0).
    rewrite <- Rmult_assoc. apply Rmult_le_compat_r; [apply bpow_ge_0|].
    rewrite <- minus_IZR, <- abs_IZR, <- mult_IZR. apply IZR_le.
    assert (a <> b * 10 ^ (g - f)) by (intros Q; apply Hab; now rewrite Q). lia. }
  destruct (Z.le_ge_cases e e') as [Q|Q].
  - pose proof (Hgrid c e c' e' Hc ltac:(lia) Q Hne) as G. fold x y in G. lra.
  - pose proof (Hgrid c' e' c e Hc' ltac:(lia) Q (not_eq_sym Hne)) as G. fold x y in G.
    rewrite Rabs_minus_sym in G. lra.
Qed.

Lemma dec_real_inj c e c' e' : 0 < c -> 0 < c' -> c mod 10 <> 0 -> dec_real c e = dec_real c' e' ->
  e' <= e /\ c' = c * 10 ^ (e - e').
Proof.
  intros Hc Hc' Hm E. unfold dec_real in E.
  destruct (Z.le_gt_cases e' e) as [Q|Q].
  - split; [easy|]. replace e with (e' + (e - e')) in E by lia. rewrite bpow_plus, (bpow10_nonneg (e - e')) in E by lia.
    apply eq_IZR. rewrite mult_IZR. apply Rmult_eq_reg_r with (bpow radix10 e'); [|apply Rgt_not_eq, bpow_gt_0].
    rewrite <- E. ring.
  - exfalso. replace e' with (e + (e' - e)) in E by lia. rewrite bpow_plus, (bpow10_nonneg (e' - e)) in E by lia.
    assert (c = c' * 10 ^ (e' - e)) as ->.
    { apply eq_IZR. rewrite mult_IZR. apply Rmult_eq_reg_r with (bpow radix10 e); [|apply Rgt_not_eq, bpow_gt_0].
      rewrite E. ring. }
    apply Hm. replace (e' - e) with (Z.succ (e' - e - 1)) by lia. rewrite Z.pow_succ_r by lia.
    rewrite Z.mul_assoc, (Z.mul_comm c'), <- Z.mul_assoc, Z.mul_comm. apply Z_mod_mult.
Qed.

Lemma degrees_normal i : in_i32 i -> i <> 0 -> (bpow radix2 (-1022) <= Rabs (B2R (degrees i)))%R.
Proof.
  unfold in_i32. intros Hi Hn. destruct (degrees_correct i ltac:(lia)) as (A & _). rewrite A.
  eapply Rle_trans with (bpow radix2 (-24)); [apply bpow_le; lia|].
  apply abs_round_ge_generic; [exact _|exact _| |].
  - rewrite fexp64_eq. apply generic_format_bpow. unfold FLT_exp. lia.
  - unfold Rdiv. rewrite Rabs_mult, (Rabs_right (/ 10000000)), <- abs_IZR by lra.
    change (bpow radix2 (-24)) with (/ 16777216)%R.
    assert (1 <= IZR (Z.abs i))%R by (apply IZR_le; lia). lra.
Qed.

Lemma Babs_of_dec c e (d : f64) : 0 < c -> is_finite d = true -> B2R d <> 0%R ->
  (f64_of_dec (Bsign d) c e = d <-> f64_of_dec false c e = Babs d).
Proof.
  intros Hc Hf Hz.
  assert (S : forall neg, f64_of_dec neg c e = (if neg then Bopp (f64_of_dec false c e) else f64_of_dec false c e)).
  { intros [|]; [|easy].
    pose proof (f64_of_dec_correct false c e Hc) as G1. pose proof (f64_of_dec_correct true c e Hc) as G2.
    cbn zeta in *. cbn [signed] in *.
    assert (Hr : (rnd64 (- dec_real c e) = - rnd64 (dec_real c e))%R) by apply round_NE_opp.
    rewrite Hr, Rabs_Ropp in G2. destruct (Rlt_bool _ _).
    - destruct G1 as (A1 & B1 & C1), G2 as (A2 & B2 & C2). apply B2R_Bsign_inj.
      + easy.
      + now rewrite is_finite_Bopp.
      + rewrite B2R_Bopp. congruence.
      + rewrite Bsign_Bopp, C1, C2; [easy|]. now destruct (f64_of_dec false c e).
    - now rewrite G1, G2. }
  rewrite (S (Bsign d)). destruct d as [s|s| |s m x H]; try easy.
  cbn [Bsign Babs]. destruct s; [|easy]. split; intros E.
  - apply (f_equal Bopp) in E. rewrite Bopp_involutive in E. rewrite E. reflexivity.
  - rewrite E. reflexivity.
Qed.
