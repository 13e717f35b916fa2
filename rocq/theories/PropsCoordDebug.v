(** C114: the Debug form of coordinates. *)
From Coq Require Import String ZArith List Bool Lia Reals Lra.
From Flocq Require Import Core.Core IEEE754.BinarySingleNaN.
From Coq Require Import ZifyBool ZifyNat.
From Verif Require Import Base SpecNum Ints Coord CoordFacts SpecCoord CoordText PropsCoord PropsCoord2 CoordDebug.
Import ListNotations.
Open Scope Z_scope.

(** ** Specification *)

(** [t] is the text Rust documents for [Debug] of a finite f64: the shortest decimal that
    reads back, with an exponent if the number is below 1e-4 or at least 1e16 (both as
    f64), otherwise with a point and at least one digit behind it. *)
Definition DebugText (d : f64) (t : str) : Prop :=
  match d with
  | B754_zero s => t = (if s then lit "-" else []) ++ lit "0.0"
  | B754_finite s _ _ _ =>
      exists c e, ShortestDecimal d c e /\
        t = (if s then lit "-" else []) ++
            (if f64_lt (Babs d) (f64_of_dec false 1 (-4)) || negb (f64_lt (Babs d) (f64_of_dec false 1 16))
             then exponential c e else positional1 c e)
  | _ => False
  end.

(** ** Comparing with the bounds *)

Lemma abs_degrees i : in_i32 i -> is_finite (Babs (degrees i)) = true /\
  B2R (Babs (degrees i)) = rnd64 (IZR (Z.abs i) / 10000000).
Proof.
  intros Hi. destruct (degrees_correct i ltac:(unfold in_i32 in *; lia)) as (A & B & _).
  rewrite is_finite_Babs, B2R_Babs, A. split; [exact B|].
  rewrite <- round_NE_abs by exact _. f_equal. unfold Rdiv. rewrite Rabs_mult, (Rabs_right (/ 10000000)) by lra. now rewrite abs_IZR.
Qed.

Lemma below_1e4 i : in_i32 i -> f64_lt (Babs (degrees i)) (f64_of_dec false 1 (-4)) = (Z.abs i <? 1000).
Proof.
  intros Hi. destruct (abs_degrees i Hi) as (A & B).
  assert (E : f64_of_dec false 1 (-4) = degrees 1000).
  { apply (degrees_is_dec 1000 1 (-4)); [unfold in_i32; lia|lia|lia|]. unfold dec_real. rewrite bpow10_neg by lia.
    change (10 ^ (- -4)) with 10000. change (Z.abs 1000) with 1000. lra. }
  rewrite E. assert (H1000 : in_i32 1000) by (unfold in_i32; lia).
  destruct (degrees_correct 1000 ltac:(lia)) as (C & D & _).
  unfold f64_lt. rewrite Bltb_correct by assumption. rewrite B, C.
  destruct (Z.abs i <? 1000) eqn:Q.
  - assert (in_i32 (Z.abs i)) by (unfold in_i32 in *; lia).
    pose proof (proj1 (proj1 (C99_degrees (Z.abs i) 1000 H H1000)) ltac:(lia)) as L.
    destruct (degrees_correct (Z.abs i) ltac:(unfold in_i32 in *; lia)) as (F & _). rewrite F, C in L. now apply Rlt_bool_true.
  - apply Rlt_bool_false. apply round_le; [exact _|exact _|]. assert (IZR 1000 <= IZR (Z.abs i))%R by (apply IZR_le; lia). lra.
Qed.

Lemma dec_real_finite e : is_finite (f64_of_dec false 1 e) = true -> B2R (f64_of_dec false 1 e) = rnd64 (dec_real 1 e).
Proof.
  pose proof (f64_of_dec_correct false 1 e ltac:(lia)) as G. cbv zeta in G. unfold signed in G.
  destruct (Rlt_bool (Rabs (rnd64 (dec_real 1 e))) (bpow radix2 1024)); [tauto|]. rewrite G. discriminate.
Qed.

Lemma below_1e16 i : in_i32 i -> f64_lt (Babs (degrees i)) (f64_of_dec false 1 16) = true.
Proof.
  intros Hi. destruct (abs_degrees i Hi) as (A & B).
  assert (F : is_finite (f64_of_dec false 1 16) = true) by (vm_compute; reflexivity).
  assert (F2 : is_finite (f64_of_dec false 1 10) = true) by (vm_compute; reflexivity).
  assert (T : Bltb (f64_of_dec false 1 10) (f64_of_dec false 1 16) = true) by (vm_compute; reflexivity).
  unfold f64_lt. rewrite Bltb_correct in * by assumption. rewrite B.
  assert (L : (rnd64 (IZR (Z.abs i) / 10000000) <= rnd64 (dec_real 1 10))%R).
  { apply round_le; [exact _|exact _|]. unfold dec_real. rewrite bpow10_nonneg by lia.
    assert (H : (IZR (Z.abs i) <= IZR (2^31))%R) by (apply IZR_le; unfold in_i32 in Hi; lia).
    change (10 ^ 10) with 10000000000. change (2^31) with 2147483648 in H. lra. }
  rewrite <- (dec_real_finite 10 F2) in L. revert T L.
  generalize (B2R (f64_of_dec false 1 10)) (B2R (f64_of_dec false 1 16)). intros x y T L.
  destruct (Rlt_bool_spec x y) as [Q|Q]; [|discriminate]. apply Rlt_bool_true. lra.
Qed.

(** ** C114 *)

(** The Debug text of a coordinate is the one Rust documents for its degrees. *)
Theorem C114_text : forall i t, in_i32 i -> DebugText (degrees i) t <-> t = debug_coord i.
Proof.
  intros i t Hi.
  assert (K : DebugText (degrees i) (debug_coord i)).
  { unfold debug_coord. destruct (i =? 0) eqn:E0.
    - assert (i = 0) by lia; subst. reflexivity.
    - destruct (strip10 10 (Z.abs i) (-7)) as [c e] eqn:Es.
      pose proof (coord_shortest i c e Hi ltac:(lia) Es) as Hs.
      pose proof (degrees_normal i Hi ltac:(lia)) as Hnorm.
      pose proof (below_1e4 i Hi) as L4. pose proof (below_1e16 i Hi) as L16.
      unfold in_i32 in Hi. destruct (degrees_correct i ltac:(lia)) as (_ & DB & DC).
      destruct (degrees i) as [s|s| |s m x H].
      + clear L4 L16. cbn [B2R] in Hnorm. rewrite Rabs_R0 in Hnorm. pose proof (bpow_gt_0 radix2 (-1022)). lra.
      + discriminate DB.
      + discriminate DB.
      + cbn [Bsign] in DC. subst s. exists c, e. split; [exact Hs|]. rewrite L4, L16, orb_false_r. reflexivity. }
  split; [|intros ->; exact K]. revert K. generalize (debug_coord i). intros u.
  destruct (degrees i) as [s|s| |s m x H]; cbn [DebugText]; [intros -> ->; reflexivity|intros []|intros []|].
  intros (c & e & (A1 & A2 & A3 & A4) & ->) (c' & e' & (B1 & B2 & B3 & B4) & ->).
  destruct (A4 c' e' B1 B3) as [L|[-> ->]]; [|reflexivity].
  destruct (B4 c e A1 A3) as [L'|[-> ->]]; [|reflexivity]. exfalso. clear - L L'. lia.
Qed.
Print Assumptions C114_text.
Example C114_text_ex : in_i32 (-15) /\ debug_coord (-15) = lit "-1.5e-6" /\ debug_coord 1 = lit "1e-7" /\
  debug_coord 1000 = lit "0.0001" /\ debug_coord 510000000 = lit "51.0" /\ debug_coord 0 = lit "0.0".
Proof. unfold in_i32. repeat split; lia. Qed.

Lemma show_int_exp x : ExpText (lit "e" ++ show_int x) x.
Proof.
  unfold show_int. destruct (x <? 0) eqn:E.
  - destruct (show_uint_spec (- x) ltac:(lia)) as (A & B & C).
    replace x with (if true then - dec_value (show_uint (- x)) else dec_value (show_uint (- x))) at 2 by lia.
    apply (Exp_some (chr "e") (lit "-") true); [now left|constructor|exact B|exact A].
  - destruct (show_uint_spec x ltac:(lia)) as (A & B & C).
    replace x with (if false then - dec_value (show_uint x) else dec_value (show_uint x)) at 2 by lia.
    apply (Exp_some (chr "e") [] false); [now left|constructor|exact B|exact A].
Qed.

Lemma exponential_number (neg : bool) c e : 0 < c ->
  NumberText ((if neg then lit "-" else []) ++ exponential c e) neg c e.
Proof.
  intros Hc. unfold exponential. destruct (show_uint_spec c ltac:(lia)) as (A & B & C).
  destruct (show_uint c) as [|d r] eqn:Q; [easy|].
  pose proof (show_int_exp (e + Z.of_nat (length r))) as X.
  exists (if neg then lit "-" else []), [d], (match r with [] => [] | _ => lit "." end), r,
    (lit "e" ++ show_int (e + Z.of_nat (length r))), (e + Z.of_nat (length r)).
  split; [destruct r; reflexivity|]. split; [destruct neg; constructor|].
  split; [constructor; [now apply Forall_inv in A|constructor]|]. split; [now apply Forall_inv_tail in A|].
  split; [easy|]. split; [destruct r; [right|left]; easy|]. split; [exact X|].
  split; [cbn [app]; now rewrite C|lia].
Qed.

Lemma whole_number (neg : bool) c e : 0 < c -> 0 <= e ->
  NumberText ((if neg then lit "-" else []) ++ positional1 c e) neg (c * 10 ^ e * 10) (-1).
Proof.
  intros Hc He. unfold positional1, positional. destruct (show_uint_spec c ltac:(lia)) as (A & B & C).
  replace (0 <=? e) with true by lia.
  exists (if neg then lit "-" else []), (show_uint c ++ repeat 48 (Z.to_nat e)), (lit "."), (lit "0"), [], 0.
  split; [rewrite <- !app_assoc; reflexivity|]. split; [destruct neg; constructor|].
  split; [apply Forall_app; split; [exact A|apply Forall_digit_zeros]|].
  split; [constructor; [unfold is_digit; cbn; lia|constructor]|].
  split; [destruct (show_uint c); easy|]. split; [now left|]. split; [constructor|].
  split; [|reflexivity].
  change (lit "0") with (repeat 48 1). rewrite dec_value_trailing, dec_value_trailing, C, Z2Nat.id by lia.
  reflexivity.
Qed.

Lemma degrees_text (i : Z) c e : i <> 0 -> strip10 10 (Z.abs i) (-7) = (c, e) ->
  (text_value (i <? 0) c e * 10000000 = IZR i)%R.
Proof.
  intros Hn Es. pose proof (strip10_real i c e Hn Es) as Hr. unfold text_value. fold (dec_real c e). rewrite Hr.
  destruct (i <? 0) eqn:Q; cbn [signed].
  - rewrite Z.abs_neq, opp_IZR by lia. lra.
  - rewrite Z.abs_eq by lia. lra.
Qed.

Lemma debug_show i c e : i <> 0 -> 1000 <= Z.abs i -> strip10 10 (Z.abs i) (-7) = (c, e) -> e < 0 ->
  debug_coord i = show_coord i.
Proof.
  intros Hn Hi Es He. unfold debug_coord, show_coord, positional1. rewrite Es.
  replace (i =? 0) with false by lia. replace (Z.abs i <? 1000) with false by lia. now replace (0 <=? e) with false by lia.
Qed.

(** The Debug text is read back as the same coordinate (so different coordinates have
    different Debug texts). *)
Theorem C114_round_trip : forall i, in_i32 i -> coord_from_str (debug_coord i) = ROk i.
Proof.
  intros i Hi. destruct (Z.eq_dec i 0) as [->|Hn]; [vm_compute; reflexivity|].
  destruct (strip10 10 (Z.abs i) (-7)) as [c e] eqn:Es.
  pose proof (degrees_text i c e Hn Es) as T.
  pose proof (strip10_spec 10 (Z.abs i) (-7) c e ltac:(lia) Es) as (A & _).
  destruct (Z_lt_le_dec (Z.abs i) 1000) as [L|L].
  - unfold debug_coord. rewrite Es. replace (i =? 0) with false by lia. replace (Z.abs i <? 1000) with true by lia.
    now apply (C100_seven_decimals _ _ _ _ i (exponential_number (i <? 0) c e A) T).
  - destruct (Z_lt_le_dec e 0) as [Le|Le].
    + rewrite (debug_show i c e Hn L Es Le). now apply coord_text_roundtrip.
    + unfold debug_coord. rewrite Es. replace (i =? 0) with false by lia. replace (Z.abs i <? 1000) with false by lia.
      apply (C100_seven_decimals _ _ _ _ i (whole_number (i <? 0) c e A Le)); [|exact Hi].
      rewrite <- T. unfold text_value. do 2 f_equal. rewrite !mult_IZR, <- (bpow10_nonneg e Le).
      rewrite (bpow10_neg (-1)) by lia. change (10 ^ (- -1)) with 10. lra.
Qed.
Print Assumptions C114_round_trip.
Example C114_round_trip_ex : in_i32 999 /\ debug_coord 999 = lit "9.99e-5" /\ coord_from_str (lit "9.99e-5") = ROk 999.
Proof. unfold in_i32. repeat split; lia. Qed.

Lemma positional_no_e c e : 0 < c -> ~ In 101 (positional c e).
Proof.
  intros Hc. unfold positional. destruct (show_uint_spec c ltac:(lia)) as (A & _).
  assert (D : forall l, Forall is_digit l -> ~ In 101 l).
  { intros l H Hin. rewrite Forall_forall in H. specialize (H _ Hin). unfold is_digit in H. lia. }
  pose proof (D _ A) as DA.
  assert (Z0 : forall n, ~ In 101 (repeat 48 n)) by (intros n Hin; apply repeat_spec in Hin; lia).
  assert (F : forall n, ~ In 101 (firstn n (show_uint c)) /\ ~ In 101 (skipn n (show_uint c))).
  { intros n. rewrite <- (firstn_skipn n (show_uint c)) in DA. rewrite in_app_iff in DA. tauto. }
  destruct (0 <=? e); [rewrite in_app_iff; intros [H|H]; [easy|now apply Z0 in H]|].
  destruct (_ <=? _)%nat; rewrite !in_app_iff.
  - intros [H|[H|H]]; [cbn in H; lia|now apply Z0 in H|easy].
  - intros [H|[H|H]]; [now apply F in H|cbn in H; lia|now apply F in H].
Qed.

(** Debug and Display agree exactly for the coordinates of at least 0.0001 degrees that are
    not a whole number of degrees. *)
Theorem C114_display : forall i, in_i32 i ->
  debug_coord i = show_coord i <-> 1000 <= Z.abs i /\ i mod 10000000 <> 0.
Proof.
  intros i Hi. destruct (Z.eq_dec i 0) as [->|Hn].
  { split; [vm_compute; discriminate|]. cbn. lia. }
  destruct (strip10 10 (Z.abs i) (-7)) as [c e] eqn:Es.
  pose proof (strip10_spec 10 (Z.abs i) (-7) c e ltac:(lia) Es) as (A & B & C & D).
  assert (Hm : c mod 10 <> 0) by (apply D; change (10 ^ Z.of_nat 10) with 10000000000; unfold in_i32 in Hi; lia).
  assert (W : 0 <= e <-> i mod 10000000 = 0).
  { assert (Q : i mod 10000000 = 0 <-> Z.abs i mod 10000000 = 0) by (Z.div_mod_to_equations; lia).
    rewrite Q, C. split; intros H.
    - replace (e - -7) with (e + 7) by lia. rewrite Z.pow_add_r by lia. change (10 ^ 7) with 10000000.
      rewrite Z.mul_assoc. apply Z.mod_mul. lia.
    - destruct (Z_lt_le_dec e 0) as [L|L]; [|exact L]. exfalso. apply Hm.
      apply Z.mod_divide in H; [|lia]. destruct H as (k & H).
      replace 10000000 with (10 * 10 ^ (- e - 1) * 10 ^ (e - -7)) in H.
      + pose proof (Z.pow_pos_nonneg 10 (e - -7) ltac:(lia) ltac:(lia)).
        rewrite !Z.mul_assoc in H. apply Z.mul_reg_r in H; [|lia]. rewrite H.
        replace (k * 10 * 10 ^ (- e - 1)) with (k * 10 ^ (- e - 1) * 10) by lia. now apply Z.mod_mul.
      + rewrite <- Z.mul_assoc, <- Z.pow_add_r by lia. rewrite <- Z.pow_succ_r by lia.
        replace (Z.succ (- e - 1 + (e - -7))) with 7 by lia. reflexivity. }
  split.
  - intros H. unfold debug_coord, show_coord in H. rewrite Es in H. replace (i =? 0) with false in H by lia.
    apply app_inv_head in H. destruct (Z.abs i <? 1000) eqn:Q.
    + exfalso. apply (positional_no_e c e A). rewrite <- H. unfold exponential.
      destruct (show_uint_spec c ltac:(lia)) as (_ & N & _). destruct (show_uint c); [easy|].
      right. apply in_or_app. right. now left.
    + split; [lia|]. intros K. apply W in K. unfold positional1 in H. replace (0 <=? e) with true in H by lia.
      apply (f_equal (@length Z)) in H. rewrite app_length in H. cbn in H. lia.
  - intros (L & K). apply (debug_show i c e Hn L Es). lia.
Qed.
Print Assumptions C114_display.
Example C114_display_ex : in_i32 (-514000000) /\ debug_coord (-514000000) = lit "-51.4" /\ debug_coord 999 <> show_coord 999 /\
  debug_coord 20000000 <> show_coord 20000000.
Proof. unfold in_i32. repeat split; try lia; vm_compute; discriminate. Qed.
