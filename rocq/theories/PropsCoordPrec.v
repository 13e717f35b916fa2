(** C131: coordinates shown with a precision. *)
From Coq Require Import String ZArith List Bool Lia Reals Lra.
From Flocq Require Import Core.Core IEEE754.BinarySingleNaN.
From Coq Require Import ZifyBool ZifyNat.
From Verif Require Import Base SpecNum Ints Coord SpecCoord CoordFacts CoordPrec PropsCoord2.
From Verif Require PropsSerde PropsSpeed.
Import ListNotations.
Open Scope Z_scope.

(** ** Specification *)

(** [s] is the decimal number k / 10^n with exactly [n] digits after the point, at least one
    before it, and no other leading zero; [neg]: it has a minus sign. *)
Definition FixedText (n : nat) (s : str) (neg : bool) (k : Z) : Prop :=
  exists ip fp, s = (if neg then lit "-" else []) ++ ip ++ (match n with O => [] | _ => lit "." ++ fp end)
  /\ Forall is_digit ip /\ Forall is_digit fp /\ length fp = n /\ (ip = [48] \/ exists d r, ip = d :: r /\ d <> 48)
  /\ dec_value (ip ++ fp) = k.

(** ** Proof *)

Lemma round_div_near tie a b : 0 < b -> 2 * Z.abs (round_div tie a b * b - a) <= b.
Proof.
  intros H. unfold round_div. pose proof (Z.div_mod a b ltac:(lia)) as E. pose proof (Z.mod_pos_bound a b H) as M.
  set (q := a / b) in *. set (r := a mod b) in *.
  assert (A : q * b - a = - r) by (rewrite E; ring). assert (B : (q + 1) * b - a = b - r) by (rewrite E; ring).
  destruct (2 * r <? b) eqn:E1; [lia|]. destruct (b <? 2 * r) eqn:E2; [lia|]. destruct (tie q); lia.
Qed.
Lemma round_div_pos tie a b : 0 <= a -> 0 < b -> 0 <= round_div tie a b.
Proof.
  intros H Hb. unfold round_div. pose proof (Z.div_pos a b H Hb). destruct (2 * _ <? b); [assumption|]. destruct (b <? _); [lia|]. destruct (tie _); lia.
Qed.
Lemma fixed_digits_pos tie n x : 0 <= fixed_digits tie n x.
Proof.
  destruct x as [s|s| |s m e Hb]; cbn [fixed_digits]; try lia. destruct (0 <=? e) eqn:E.
  - apply Z.mul_nonneg_nonneg; [apply Z.mul_nonneg_nonneg; [lia|apply Z.pow_nonneg; lia]|apply Z.pow_nonneg; lia].
  - apply round_div_pos; [apply Z.mul_nonneg_nonneg; [lia|apply Z.pow_nonneg; lia]|apply Z.pow_pos_nonneg; lia].
Qed.
Lemma fixed_digits_near tie n (x : f64) : is_finite x = true ->
  (Rabs (IZR (fixed_digits tie n x) - Rabs (B2R x) * IZR (10 ^ Z.of_nat n)) <= / 2)%R.
Proof.
  destruct x as [s|s| |s m e Hb]; cbn [is_finite]; try discriminate; intros _.
  - cbn [fixed_digits B2R]. rewrite Rabs_R0, Rmult_0_l, Rminus_0_r, Rabs_R0. lra.
  - assert (HB : Rabs (B2R (B754_finite s m e Hb)) = (IZR (Zpos m) * bpow radix2 e)%R).
    { cbn [B2R]. unfold F2R. cbn [Fnum Fexp]. rewrite Rabs_mult, (Rabs_pos_eq (bpow _ _)) by apply bpow_ge_0. rewrite <- abs_IZR. f_equal. f_equal. now destruct s. }
    rewrite HB. clear HB. cbn [fixed_digits]. set (t := 10 ^ Z.of_nat n). destruct (0 <=? e) eqn:E.
    + assert (bpow radix2 e = IZR (2 ^ e)) as -> by (rewrite <- IZR_Zpower by lia; reflexivity).
      rewrite !mult_IZR. unfold Rminus. rewrite Rplus_opp_r, Rabs_R0. lra.
    + assert (Hp : 0 < 2 ^ (- e)) by (apply Z.pow_pos_nonneg; lia).
      assert (bpow radix2 e = (/ IZR (2 ^ (- e)))%R) as ->.
      { replace e with (- (- e)) at 1 by lia. rewrite bpow_opp. f_equal. rewrite <- IZR_Zpower by lia. reflexivity. }
      pose proof (round_div_near tie (Z.pos m * t) (2 ^ (- e)) Hp) as N. set (k := round_div tie _ _) in *. set (b := 2 ^ (- e)) in *.
      apply IZR_le in N. rewrite mult_IZR, abs_IZR, minus_IZR, !mult_IZR in N. apply IZR_lt in Hp.
      replace (IZR k - IZR (Z.pos m) * / IZR b * IZR t)%R with ((IZR k * IZR b - IZR (Z.pos m) * IZR t) * / IZR b)%R by (field; lra).
      rewrite Rabs_mult, (Rabs_pos_eq (/ IZR b)) by (left; now apply Rinv_0_lt_compat).
      apply (Rmult_le_reg_r (IZR b)); [exact Hp|]. rewrite Rmult_assoc, Rinv_l, Rmult_1_r by lra. lra.
Qed.

Lemma degrees_near i : in_i32 i -> (Rabs (Rabs (B2R (degrees i)) - IZR (Z.abs i) / 10000000) <= / 70368744177664)%R.
Proof.
  intros Hi. unfold in_i32 in Hi. destruct (degrees_correct i ltac:(lia)) as (A & _ & _).
  assert (HiR : (Rabs (IZR i) <= 2147483648)%R) by (rewrite <- abs_IZR; apply (IZR_le _ (2^31)); lia).
  assert (Hx : (Rabs (IZR i / 10000000) < bpow radix2 8)%R).
  { unfold Rdiv. rewrite Rabs_mult, (Rabs_right (/ 10000000)) by lra. change (bpow radix2 8) with 256%R. lra. }
  pose proof (rnd_err 8 _ ltac:(lia) Hx) as E1. rewrite <- A, bpow_m46 in E1.
  replace (IZR (Z.abs i) / 10000000)%R with (Rabs (IZR i / 10000000)) by (unfold Rdiv; rewrite Rabs_mult, (Rabs_right (/ 10000000)), abs_IZR by lra; reflexivity).
  eapply Rle_trans; [apply Rabs_triang_inv2|exact E1].
Qed.

(** The digits are those of a nearest decimal. *)
Lemma digits_nearest tie n i : in_i32 i -> (n <= 13)%nat ->
  2 * Z.abs (fixed_digits tie n (degrees i) * 10 ^ 7 - Z.abs i * 10 ^ Z.of_nat n) <= 10 ^ 7.
Proof.
  intros Hi Hn. assert (F : is_finite (degrees i) = true) by (unfold in_i32 in Hi; apply degrees_correct; lia).
  pose proof (fixed_digits_near tie n _ F) as A. pose proof (degrees_near i Hi) as B.
  set (k := fixed_digits tie n (degrees i)) in *. set (d := Rabs (B2R (degrees i))) in *. set (t := 10 ^ Z.of_nat n) in *.
  assert (T : 0 < t <= 10 ^ 13) by (unfold t; split; [apply Z.pow_pos_nonneg; lia|apply Z.pow_le_mono_r; lia]).
  assert (Tr : (0 < IZR t)%R) by (apply (IZR_lt 0); lia).
  assert (C : (Rabs (IZR k * 10000000 - IZR (Z.abs i) * IZR t) <= 5000000 + 10000000 * IZR t * / 70368744177664)%R).
  { replace (IZR k * 10000000 - IZR (Z.abs i) * IZR t)%R with ((IZR k - d * IZR t) * 10000000 + (d - IZR (Z.abs i) / 10000000) * (IZR t * 10000000))%R by field.
    eapply Rle_trans; [apply Rabs_triang|]. rewrite !Rabs_mult, (Rabs_pos_eq 10000000), (Rabs_pos_eq (IZR t)) by lra.
    assert (G : (Rabs (d - IZR (Z.abs i) / 10000000) * (IZR t * 10000000) <= / 70368744177664 * (IZR t * 10000000))%R) by (apply Rmult_le_compat_r; lra). lra. }
  change (10 ^ 7) with 10000000. rewrite <- !mult_IZR, <- minus_IZR, <- abs_IZR in C.
  destruct (le_lt_dec 7 n) as [L|L].
  - assert (Tm : t = 10000000 * 10 ^ (Z.of_nat n - 7)) by (unfold t; change 10000000 with (10 ^ 7); rewrite <- Z.pow_add_r by lia; f_equal; lia).
    assert (G : (IZR (Z.abs (k * 10000000 - Z.abs i * t)) < 10000000)%R).
    { eapply Rle_lt_trans; [exact C|]. rewrite mult_IZR. assert (IZR t <= IZR (10 ^ 13))%R by (apply IZR_le; lia). change (IZR (10 ^ 13)) with 10000000000000%R in *. lra. }
    apply lt_IZR in G. rewrite Tm in *. set (u := 10 ^ (Z.of_nat n - 7)) in *. clearbody u. lia.
  - assert (T6 : t <= 10 ^ 6) by (unfold t; apply Z.pow_le_mono_r; lia).
    assert (G : (IZR (Z.abs (k * 10000000 - Z.abs i * t)) < 5000001)%R).
    { eapply Rle_lt_trans; [exact C|]. rewrite mult_IZR. assert (IZR t <= IZR (10 ^ 6))%R by (apply IZR_le; lia). change (IZR (10 ^ 6)) with 1000000%R in *. lra. }
    apply lt_IZR in G. lia.
Qed.

Lemma fixed_text_spec n k : 0 <= k -> exists ip fp, fixed_text n k = ip ++ (match n with O => [] | _ => lit "." ++ fp end)
  /\ Forall is_digit ip /\ Forall is_digit fp /\ length fp = n /\ (ip = [48] \/ exists d r, ip = d :: r /\ d <> 48) /\ dec_value (ip ++ fp) = k.
Proof.
  intros Hk. unfold fixed_text. destruct (show_uint_spec k Hk) as (A & B & C). destruct (PropsSerde.show_uint_zero k Hk) as (c & r & Ec & Hc).
  set (ds := show_uint k) in *. set (ds' := repeat 48 (S n - length ds) ++ ds).
  assert (D : Forall is_digit ds') by (apply Forall_app; split; [apply Forall_digit_zeros|exact A]).
  assert (L : length ds' = Nat.max (S n) (length ds)) by (unfold ds'; rewrite app_length, repeat_length; lia).
  exists (firstn (length ds' - n) ds'), (skipn (length ds' - n) ds'). rewrite firstn_skipn. split; [now destruct n|].
  rewrite <- (firstn_skipn (length ds' - n) ds') in D. apply Forall_app in D as [D1 D2]. split; [exact D1|]. split; [exact D2|].
  split; [rewrite skipn_length; lia|]. split; [|unfold ds'; rewrite dec_value_zeros; exact C].
  destruct (le_lt_dec (S n) (length ds)) as [G|G].
  - unfold ds' in *. replace (S n - length ds)%nat with O in * by lia. cbn [repeat app] in *. rewrite Ec in *. cbn [length] in *.
    replace (S (length r) - n)%nat with (S (length r - n)) by lia. cbn [firstn]. destruct (Z.eq_dec c 48) as [->|Nc].
    + left. rewrite (Hc eq_refl). cbn [length] in *. now rewrite firstn_nil.
    + right. now exists c, (firstn (length r - n) r).
  - left. rewrite L. replace (Nat.max (S n) (length ds) - n)%nat with 1%nat by lia. unfold ds'. now replace (S n - length ds)%nat with (S (n - length ds)) by lia.
Qed.
Lemma show_fixed tie n i : in_i32 i -> FixedText n (show_prec tie n i) (i <? 0) (fixed_digits tie n (degrees i)).
Proof.
  intros Hi. unfold show_prec. destruct (degrees_correct i ltac:(unfold in_i32 in Hi; lia)) as (_ & _ & ->).
  destruct (fixed_text_spec n _ (fixed_digits_pos tie n (degrees i))) as (ip & fp & -> & H). exists ip, fp. split; [reflexivity|exact H].
Qed.
Lemma fixed_number n s neg k : FixedText n s neg k -> NumberText s neg k (- Z.of_nat n).
Proof.
  intros (ip & fp & -> & A & B & L & H & V). exists (if neg then lit "-" else []), ip, (match n with O => [] | _ => lit "." end), fp, [], 0.
  assert (N : ip <> []) by (destruct H as [->|(d & r & -> & _)]; discriminate).
  split; [destruct n; [destruct fp; [|discriminate L]|]; now rewrite ?app_nil_r|]. split; [destruct neg; constructor|]. split; [exact A|]. split; [exact B|].
  split; [destruct ip; [congruence|discriminate]|]. split; [destruct n; [right; split; [reflexivity|now destruct fp]|now left]|]. split; [constructor|]. split; [now rewrite V|lia].
Qed.
Lemma fixed_value neg n k j : k * 10 ^ 7 = j * 10 ^ Z.of_nat n -> (text_value neg k (- Z.of_nat n) * 10000000 = IZR (if neg then - j else j))%R.
Proof.
  intros E. unfold text_value. rewrite bpow_opp. assert (bpow radix10 (Z.of_nat n) = IZR (10 ^ Z.of_nat n)) as -> by (apply bpow10_nonneg; lia).
  assert (T : (0 < IZR (10 ^ Z.of_nat n))%R) by (apply (IZR_lt 0), Z.pow_pos_nonneg; lia).
  apply (f_equal IZR) in E. rewrite !mult_IZR in E. change (IZR (10 ^ 7)) with 10000000%R in E.
  assert (G : (IZR k * / IZR (10 ^ Z.of_nat n) * 10000000 = IZR j)%R).
  { apply (Rmult_eq_reg_r (IZR (10 ^ Z.of_nat n))); [|lra]. rewrite <- E. field. lra. }
  destruct neg; cbn [signed]; rewrite ?opp_IZR; lra.
Qed.

Lemma fixed_same n s s' neg k : FixedText n s neg k -> FixedText n s' neg k -> s = s'.
Proof.
  intros (ip & fp & -> & A & B & L & H & V) (ip' & fp' & -> & A' & B' & L' & H' & V'). rewrite dec_value_app, L in V. rewrite dec_value_app, L' in V'.
  pose proof (dec_value_bound fp B) as M. pose proof (dec_value_bound fp' B') as M'. pose proof (dec_value_nonneg fp B) as N. pose proof (dec_value_nonneg fp' B') as N'.
  rewrite L in M. rewrite L' in M'. set (t := 10 ^ Z.of_nat n) in *. assert (E : dec_value ip = dec_value ip') by (clearbody t; nia).
  assert (C : forall x, Forall is_digit x -> (x = [48] \/ exists d r, x = d :: r /\ d <> 48) -> PropsSpeed.canonical x).
  { intros x Fx [->|(d & r & -> & Hd)]; (split; [exact Fx|]); (split; [discriminate|]); [now left|right; exact Hd]. }
  rewrite (PropsSpeed.canonical_unique ip ip' (C _ A H) (C _ A' H') E), (PropsSpeed.same_length_inj fp fp' B B'); [reflexivity|congruence|lia].
Qed.

(** ** C131 *)

(** The text has exactly the digits asked for and stands for a decimal nearest to the
    coordinate: it is off by at most half a unit of its last digit. *)
Theorem C131_nearest : forall tie n i, in_i32 i -> (n <= 13)%nat ->
  exists k, FixedText n (show_prec tie n i) (i <? 0) k /\ 2 * Z.abs (k * 10 ^ 7 - Z.abs i * 10 ^ Z.of_nat n) <= 10 ^ 7.
Proof. intros tie n i Hi Hn. exists (fixed_digits tie n (degrees i)). split; [now apply show_fixed|now apply digits_nearest]. Qed.
Lemma exact_text tie n i : in_i32 i -> (7 <= n <= 13)%nat -> FixedText n (show_prec tie n i) (i <? 0) (Z.abs i * 10 ^ (Z.of_nat n - 7)).
Proof.
  intros Hi Hn. destruct (C131_nearest tie n i Hi ltac:(lia)) as (k & A & B).
  assert (Tm : 10 ^ Z.of_nat n = 10 ^ 7 * 10 ^ (Z.of_nat n - 7)) by (rewrite <- Z.pow_add_r by lia; f_equal; lia).
  rewrite Tm in B. change (10 ^ 7) with 10000000 in B. set (u := 10 ^ (Z.of_nat n - 7)) in *. replace (Z.abs i * u) with k; [exact A|]. clearbody u. nia.
Qed.
(** With seven digits or more it is the coordinate itself, and its only text with so many
    digits. *)
Theorem C131_exact : forall tie n i t, in_i32 i -> (7 <= n <= 13)%nat ->
  FixedText n t (i <? 0) (Z.abs i * 10 ^ (Z.of_nat n - 7)) <-> t = show_prec tie n i.
Proof.
  intros tie n i t Hi Hn. pose proof (exact_text tie n i Hi Hn) as A. split; [|now intros ->]. intros H. exact (fixed_same _ _ _ _ _ H A).
Qed.
(** Reading it again gives the coordinate with seven digits or more... *)
Theorem C131_read_exact : forall tie n i, in_i32 i -> (7 <= n <= 13)%nat -> coord_from_str (show_prec tie n i) = ROk i.
Proof.
  intros tie n i Hi Hn. pose proof (exact_text tie n i Hi Hn) as A. apply fixed_number in A.
  refine (proj1 (C100_seven_decimals _ _ _ _ i A _) Hi). rewrite (fixed_value _ _ _ (Z.abs i)).
  - f_equal. destruct (i <? 0) eqn:E; lia.
  - rewrite <- Z.mul_assoc, <- Z.pow_add_r by lia. do 2 f_equal. lia.
Qed.
(** ... and with fewer, for coordinates on Earth, one that is off by at most half a unit of
    the last digit. *)
Theorem C131_read_near : forall tie n i, Z.abs i <= 1800000000 -> (n < 7)%nat ->
  exists j, coord_from_str (show_prec tie n i) = ROk j /\ 2 * Z.abs (j - i) <= 10 ^ (7 - Z.of_nat n).
Proof.
  intros tie n i Hi Hn. assert (Hi' : in_i32 i) by (unfold in_i32; lia). destruct (C131_nearest tie n i Hi' ltac:(lia)) as (k & A & B).
  assert (Hk : 0 <= k) by (destruct A as (ip & fp & _ & D1 & D2 & _ & _ & <-); apply dec_value_nonneg, Forall_app; now split).
  apply fixed_number in A. set (u := 10 ^ (7 - Z.of_nat n)) in *.
  assert (Tm : 10 ^ 7 = u * 10 ^ Z.of_nat n) by (unfold u; rewrite <- Z.pow_add_r by lia; f_equal; lia).
  assert (Hu : 0 < u <= 10 ^ 7) by (unfold u; split; [apply Z.pow_pos_nonneg; lia|apply Z.pow_le_mono_r; lia]).
  assert (Ht : 0 < 10 ^ Z.of_nat n) by (apply Z.pow_pos_nonneg; lia).
  assert (N : 2 * Z.abs (k * u - Z.abs i) <= u).
  { rewrite Tm in B. replace (k * (u * 10 ^ Z.of_nat n) - Z.abs i * 10 ^ Z.of_nat n) with ((k * u - Z.abs i) * 10 ^ Z.of_nat n) in B by ring.
    rewrite Z.abs_mul, (Z.abs_eq (10 ^ Z.of_nat n)) in B by lia. nia. }
  exists (if i <? 0 then - (k * u) else k * u). split.
  - refine (proj1 (C100_seven_decimals _ _ _ _ _ A (fixed_value _ _ _ (k * u) _)) _); [rewrite Tm; ring|].
    change (10 ^ 7) with 10000000 in Hu. unfold in_i32. clearbody u. destruct (i <? 0); lia.
  - clearbody u. destruct (i <? 0) eqn:E; lia.
Qed.

Lemma app_same {A} : forall (a c b d : list A), a ++ b = c ++ d -> length a = length c -> a = c /\ b = d.
Proof.
  induction a as [|x a IH]; intros [|y c] b d E L; try discriminate; [now split|]. injection E as -> E. injection L as L. destruct (IH c b d E L) as [-> ->]. now split.
Qed.
Lemma fixed_unique n s neg k k' : FixedText n s neg k -> FixedText n s neg k' -> k = k'.
Proof.
  intros (ip & fp & E & _ & _ & L & _ & <-) (ip' & fp' & E' & _ & _ & L' & _ & <-). rewrite E in E'. apply app_inv_head in E'. destruct n as [|n].
  - destruct fp; [|discriminate]. destruct fp'; [|discriminate]. now rewrite !app_nil_r in *; subst.
  - assert (Le : length ip = length ip') by (apply (f_equal (@length _)) in E'; rewrite !app_length in E'; lia).
    apply app_same in E' as [-> E']; [|exact Le]. apply app_inv_head in E'. now subst.
Qed.
(** "The digits after the seventh are zeros" is false with one digit more than these. *)
Theorem C131_more_digits_refuted : ~ forall tie n i, in_i32 i -> (7 <= n <= 14)%nat -> FixedText n (show_prec tie n i) (i <? 0) (Z.abs i * 10 ^ (Z.of_nat n - 7)).
Proof.
  intros H. set (tie := fun _ : Z => false). set (i := 1792345601). assert (Hi : in_i32 i) by (unfold in_i32, i; lia).
  pose proof (fixed_unique _ _ _ _ _ (H tie 14%nat i Hi ltac:(lia)) (show_fixed tie 14 i Hi)) as E. vm_compute in E. discriminate E.
Qed.
(** "Fewer digits round half up" (or any rule about ties of the coordinate itself) is false:
    the f64 decides.  0.05 is shown as 0.1 and 0.15 as 0.1. *)
Example C131_ties : forall tie, show_prec tie 1 500000 = lit "0.1" /\ show_prec tie 1 1500000 = lit "0.1" /\ show_prec tie 1 2500000 = (if tie 2 then lit "0.3" else lit "0.2").
Proof. intros tie. split; [reflexivity|]. split; [reflexivity|]. vm_compute. destruct (tie 2); reflexivity. Qed.
Example C131_ex : forall tie, in_i32 (-1234567) /\ show_prec tie 7 (-1234567) = lit "-0.1234567" /\ show_prec tie 0 (-1234567) = lit "-0"
  /\ show_prec tie 9 515000001 = lit "51.500000100" /\ show_prec tie 4 515000001 = lit "51.5000".
Proof. intros tie. split; [unfold in_i32; lia|]. repeat split; vm_compute; reflexivity. Qed.
Print Assumptions C131_nearest.
Print Assumptions C131_exact.
Print Assumptions C131_read_exact.
Print Assumptions C131_read_near.
Print Assumptions C131_more_digits_refuted.
