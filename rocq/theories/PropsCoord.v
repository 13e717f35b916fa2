(** C03-C07: coordinates. *)
From Coq Require Import String ZArith List Bool Lia Reals Lra.
From Flocq Require Import Core.Core IEEE754.BinarySingleNaN.
From Coq Require Import ZifyBool ZifyNat.
From Verif Require Import Base SpecNum Ints Coord CoordFacts SpecCoord CoordText.
Import ListNotations.
Open Scope Z_scope.

(** ** C03 *)

(** Whatever text is the documented Display text of the f64 shown for the
    coordinate, it reads back to the same coordinate. *)
Theorem C03_text_roundtrip : forall i t, in_i32 i -> DisplayText (degrees i) t -> coord_from_str t = ROk i.
Proof.
  intros i t Hi Ht. rewrite (display_unique _ _ _ Ht (show_coord_display i Hi)). now apply coord_text_roundtrip.
Qed.
Print Assumptions C03_text_roundtrip.

(** That text exists, and is the one the writers' model produces: i * 10^-7
    without trailing zeros. *)
Theorem C03_display_text : forall i, in_i32 i ->
  DisplayText (degrees i) (show_coord i) /\ forall t, DisplayText (degrees i) t -> t = show_coord i.
Proof.
  intros i Hi. split; [now apply show_coord_display|]. intros t Ht.
  eapply display_unique; [exact Ht|now apply show_coord_display].
Qed.
Print Assumptions C03_display_text.
Example C03_ex : in_i32 (-1234567) /\ show_coord (-1234567) = lit "-0.1234567" /\ show_coord 514000000 = lit "51.4".
Proof. repeat split; vm_compute; congruence. Qed.

(** ** C04 *)

Theorem C04_degrees_roundtrip : forall i, in_i32 i -> coord_of_f64 (degrees i) = ROk i.
Proof. exact coord_degrees. Qed.
Print Assumptions C04_degrees_roundtrip.
Example C04_ex : in_i32 2147483647 /\ coord_of_f64 (degrees 2147483647) = ROk 2147483647.
Proof. split; [unfold in_i32; lia|reflexivity]. Qed.

(** ** C05 *)

Lemma product_cases x : is_finite x = true ->
  (coord_of_f64 x = clamp_coord (ZnearestA (rnd64 (B2R x * 10000000))) /\
     (Rabs (rnd64 (B2R x * 10000000)) < bpow radix2 1024)%R) \/
  (coord_of_f64 x = RErr (if Bsign x then TooSmall else TooLarge) /\
     (bpow radix2 1024 <= Rabs (rnd64 (B2R x * 10000000)))%R).
Proof.
  intros H. pose proof (mul_scale x H) as G. unfold coord_of_f64.
  destruct (Rlt_bool_spec (Rabs (rnd64 (B2R x * 10000000))) (bpow radix2 1024)) as [Q|Q].
  - left. destruct G as (A & B). now rewrite coord_of_product_finite, A.
  - right. now rewrite G, coord_of_product_inf.
Qed.

Lemma sign_neg (x : f64) : is_finite x = true -> Bsign x = true -> (B2R x <= 0)%R.
Proof.
  destruct x as [s|s| |s m e H]; cbn; try easy; [lra|]. intros _ ->. now apply F2R_le_0.
Qed.
Lemma sign_pos (x : f64) : is_finite x = true -> Bsign x = false -> (0 <= B2R x)%R.
Proof.
  destruct x as [s|s| |s m e H]; cbn; try easy; [lra|]. intros _ ->. now apply F2R_ge_0.
Qed.

Lemma big_bpow : (IZR (2^40) < bpow radix2 1024)%R.
Proof. change (IZR (2^40)) with (bpow radix2 40). apply bpow_lt. lia. Qed.

(** Which outcome, exactly: take degrees * 1e7 rounded to binary64, then to the
    nearest integer (ties away from zero); in the i32 range that is the value,
    outside it the error tells the side. *)
Theorem C05_exact : forall x, is_finite x = true ->
  let n := ZnearestA (rnd64 (B2R x * 10000000)) in
  (in_i32 n -> coord_of_f64 x = ROk n) /\
  (2^31 <= n -> coord_of_f64 x = RErr TooLarge) /\
  (n < - 2^31 -> coord_of_f64 x = RErr TooSmall).
Proof.
  intros x H. cbn zeta. destruct (product_cases x H) as [(E & _)|(E & Q)].
  - rewrite E. unfold clamp_coord, in_i32. set (n := ZnearestA _).
    destruct (2^31 - 1 <? n) eqn:Q1; [repeat split; intros; easy || lia|].
    destruct (n <? - 2^31) eqn:Q2; repeat split; intros; easy || lia.
  - assert (Hbig : (Rabs (IZR (ZnearestA (rnd64 (B2R x * 10000000))) - rnd64 (B2R x * 10000000)) <= /2)%R) by apply ZnearestA_err.
    pose proof big_bpow as HB. change (IZR (2^40)) with 1099511627776%R in HB.
    set (p := rnd64 (B2R x * 10000000)) in *. set (n := ZnearestA p) in *.
    assert (Hs : if Bsign x then (p <= 0)%R else (0 <= p)%R).
    { destruct (Bsign x) eqn:S.
      - pose proof (sign_neg x H S). unfold p. rewrite <- (round_0 radix2 fexp64 ZnearestE).
        apply round_le; [exact _|exact _|]. lra.
      - pose proof (sign_pos x H S). unfold p. rewrite <- (round_0 radix2 fexp64 ZnearestE).
        apply round_le; [exact _|exact _|]. lra. }
    unfold in_i32. rewrite E. apply Rabs_le_inv in Hbig.
    destruct (Bsign x).
    + rewrite Rabs_left1 in Q by easy.
      assert (IZR n < IZR (- 2^31))%R by (change (IZR (- 2^31)) with (-2147483648)%R; lra).
      apply lt_IZR in H0. repeat split; intros; easy || lia.
    + rewrite Rabs_right in Q by lra.
      assert (IZR (2^31) < IZR n)%R by (change (IZR (2^31)) with 2147483648%R; lra).
      apply lt_IZR in H0. repeat split; intros; easy || lia.
Qed.
Print Assumptions C05_exact.

(** Error bounds against the real number degrees * 1e7. *)
Theorem C05_bounds : forall x, is_finite x = true ->
  let v := (B2R x * 10000000)%R in
  match coord_of_f64 x with
  | ROk i => in_i32 i /\ (Rabs (IZR i - v) <= / 2 + / 4194304)%R
  | RErr TooLarge => (2147483648 - / 2 - / 4194304 <= v)%R
  | RErr TooSmall => (v <= - 2147483648 - / 2 + / 4194304)%R
  | RErr ParseFloat => False
  end.
Proof.
  intros x H. cbn zeta. destruct (product_cases x H) as [(E & _)|(E & Q)]; rewrite E; clear E.
  - set (v := (B2R x * 10000000)%R). pose proof (ZnearestA_err (rnd64 v)) as E1.
    set (n := ZnearestA (rnd64 v)) in *.
    assert (Hsmall : (Rabs v < bpow radix2 32)%R -> (Rabs (rnd64 v - v) <= / 4194304)%R).
    { intros Hv. pose proof (rnd_err 32 v ltac:(lia) Hv) as E2. now rewrite bpow_m22 in E2. }
    change (bpow radix2 32) with 4294967296%R in Hsmall.
    assert (Hmono : (4294967296 <= Rabs v)%R -> (4294967296 <= Rabs (rnd64 v))%R).
    { intros Hv. apply abs_round_ge_generic; [exact _|exact _| |exact Hv]. apply (format_Z 4294967296). lia. }
    assert (Hsgn : (0 <= v -> 0 <= rnd64 v)%R /\ (v <= 0 -> rnd64 v <= 0)%R).
    { split; intros Hv; rewrite <- (round_0 radix2 fexp64 ZnearestE); (apply round_le; [exact _|exact _|exact Hv]). }
    destruct Hsgn as (Hs1 & Hs2). apply Rabs_le_inv in E1.
    unfold clamp_coord. destruct (2^31 - 1 <? n) eqn:Q1.
    + assert (IZR (2^31) <= IZR n)%R as Hn by (apply IZR_le; lia). change (IZR (2^31)) with 2147483648%R in Hn.
      destruct (Rlt_le_dec (Rabs v) 4294967296) as [Q|Q].
      * apply Hsmall, Rabs_le_inv in Q. lra.
      * destruct (Rle_dec 0 v) as [P|P].
        -- rewrite Rabs_right in Q by lra. lra.
        -- specialize (Hs2 ltac:(lra)). lra.
    + destruct (n <? - 2^31) eqn:Q2.
      * assert (IZR n <= IZR (- 2^31 - 1))%R as Hn by (apply IZR_le; lia). change (IZR (- 2^31 - 1)) with (-2147483649)%R in Hn.
        destruct (Rlt_le_dec (Rabs v) 4294967296) as [Q|Q].
        -- apply Hsmall, Rabs_le_inv in Q. lra.
        -- destruct (Rle_dec 0 v) as [P|P].
           ++ specialize (Hs1 P). lra.
           ++ rewrite Rabs_left in Q by lra. lra.
      * split; [unfold in_i32; lia|].
        assert (IZR n <= IZR (2^31))%R as Hn1 by (apply IZR_le; lia). change (IZR (2^31)) with 2147483648%R in Hn1.
        assert (IZR (-2^31) <= IZR n)%R as Hn2 by (apply IZR_le; lia). change (IZR (-2^31)) with (-2147483648)%R in Hn2.
        destruct (Rlt_le_dec (Rabs v) 4294967296) as [Q|Q].
        -- apply Hsmall, Rabs_le_inv in Q. apply Rabs_le. lra.
        -- apply Hmono in Q. exfalso. assert (Rabs (rnd64 v) <= 2147483649)%R by (apply Rabs_le; lra). lra.
  - pose proof big_bpow as HB. change (IZR (2^40)) with 1099511627776%R in HB.
    assert (Hv : (4294967296 <= Rabs (B2R x * 10000000))%R).
    { apply Rnot_lt_le. intros Hv.
      pose proof (rnd_abs_le_Z 4294967296 (B2R x * 10000000) ltac:(lia) ltac:(lra)). lra. }
    destruct (Bsign x) eqn:S.
    + pose proof (sign_neg x H S). rewrite Rabs_left1 in Hv by lra. lra.
    + pose proof (sign_pos x H S). rewrite Rabs_right in Hv by lra. lra.
Qed.
Print Assumptions C05_bounds.

(** Every number of degrees on Earth is accepted. *)
Theorem C05_accepts_180 : forall x, is_finite x = true -> (-180 <= B2R x <= 180)%R ->
  exists i, coord_of_f64 x = ROk i.
Proof.
  intros x H Hx. pose proof (C05_bounds x H) as G. cbn zeta in G.
  destruct (coord_of_f64 x) as [i|[]]; [now exists i|lra|lra|easy].
Qed.
Print Assumptions C05_accepts_180.

Theorem C05_infinite : coord_of_f64 (B754_infinity false) = RErr TooLarge /\ coord_of_f64 (B754_infinity true) = RErr TooSmall.
Proof. split; reflexivity. Qed.
Print Assumptions C05_infinite.

(** f32 inputs are widened without change. *)
Theorem C05_f32 : forall x, is_finite x = true ->
  coord_of_f32 x = coord_of_f64 (f64_of_f32 x) /\ B2R (f64_of_f32 x) = B2R x /\ is_finite (f64_of_f32 x) = true.
Proof.
  intros x H. split; [reflexivity|]. destruct x as [s|s| |s m e Hb]; try easy.
  cbn [f64_of_f32].
  pose proof (generic_format_B2R 24 128 (B754_finite s m e Hb)) as Gf.
  assert (Gf' : generic_format radix2 fexp64 (B2R (B754_finite s m e Hb))).
  { apply FLT_format_generic in Gf; [|reflexivity]. destruct Gf as [[fm fe] F1 F2 F3]. rewrite fexp64_eq.
    apply generic_format_FLT. apply (FLT_spec _ _ _ _ (Float radix2 fm fe)); [easy| |]; cbn [Fnum Fexp] in *.
    - eapply Z.lt_trans; [exact F2|reflexivity].
    - unfold SpecFloat.emin in F3. lia. }
  cbn [B2R] in *.
  pose proof (binary_normalize_correct 53 1024 eq_refl eq_refl mode_NE (SpecFloat.cond_Zopp s (Zpos m)) e s) as G. cbn zeta in G.
  change (round_mode mode_NE) with ZnearestE in G.
  rewrite round_generic in G; [|exact _|exact Gf'].
  rewrite Rlt_bool_true in G; [tauto|].
  eapply Rlt_trans; [apply (abs_B2R_lt_emax 24 128 (B754_finite s m e Hb))|]. apply bpow_lt. lia.
Qed.
Print Assumptions C05_f32.

(** Which texts are numbers, and which number they are. *)
Theorem C05_number_texts : forall s v, f64_from_str s = Some v <->
  (exists neg m e, NumberText s neg m e /\ v = f64_of_dec neg m e) \/
  (exists neg, NameText s neg (lit "nan") /\ v = B754_nan) \/
  (exists neg, (NameText s neg (lit "inf") \/ NameText s neg (lit "infinity")) /\ v = B754_infinity neg).
Proof. exact f64_from_str_spec. Qed.
Print Assumptions C05_number_texts.

(** [f64_of_dec] is correct rounding. *)
Theorem C05_decimal_rounding : forall (neg : bool) c e, 0 < c ->
  let x := if neg then (- (IZR c * bpow radix10 e))%R else (IZR c * bpow radix10 e)%R in
  ((Rabs (rnd64 x) < bpow radix2 1024)%R -> B2R (f64_of_dec neg c e) = rnd64 x /\ is_finite (f64_of_dec neg c e) = true) /\
  ((bpow radix2 1024 <= Rabs (rnd64 x))%R -> f64_of_dec neg c e = B754_infinity neg).
Proof.
  intros neg c e Hc. cbn zeta. pose proof (f64_of_dec_correct neg c e Hc) as G. cbn zeta in G. unfold signed, dec_real in G.
  destruct (Rlt_bool_spec (Rabs (rnd64 (if neg then - (IZR c * bpow radix10 e) else IZR c * bpow radix10 e))) (bpow radix2 1024)) as [Q|Q].
  - split; [intros _; tauto|]. intros Q'. lra.
  - split; [intros Q'; lra|]. intros _. exact G.
Qed.
Print Assumptions C05_decimal_rounding.

(** A text is turned into a coordinate by reading the number and converting it;
    everything else fails. *)
Theorem C05_from_str : forall s,
  (forall v, f64_from_str s = Some v -> coord_from_str s = coord_of_f64 v) /\
  (f64_from_str s = None -> coord_from_str s = RErr ParseFloat).
Proof. intros s. unfold coord_from_str. split; [intros v ->|intros ->]; reflexivity. Qed.
Print Assumptions C05_from_str.

Example C05_ex_finite : is_finite (degrees 5) = true.
Proof. reflexivity. Qed.
Example C05_ex_text : NumberText (lit "-1.50e1") true 150 (-1) /\ coord_from_str (lit "-1.50e1") = ROk (-150000000).
Proof.
  split; [|reflexivity].
  exists (lit "-"), (lit "1"), (lit "."), (lit "50"), (lit "e1"), 1.
  split; [reflexivity|]. split; [constructor|].
  split; [repeat constructor; unfold is_digit; cbn; lia|]. split; [repeat constructor; unfold is_digit; cbn; lia|].
  split; [discriminate|]. split; [now left|]. split; [|split; reflexivity].
  apply (Exp_some (chr "e") [] false (lit "1")); [now left|constructor|discriminate|].
  repeat constructor; unfold is_digit; cbn; lia.
Qed.

(** ** C06: false of the code *)

Theorem C06_nan_rejected_refuted :
  (exists i, coord_of_f64 B754_nan = ROk i) /\ (exists i, coord_from_str (lit "nan") = ROk i).
Proof. split; exists 0; reflexivity. Qed.
Print Assumptions C06_nan_rejected_refuted.

(** What happens instead: every NaN (number or text) becomes coordinate 0. *)
Theorem C06_nan_becomes_zero :
  coord_of_f64 B754_nan = ROk 0 /\ coord_of_f32 B754_nan = ROk 0 /\
  forall s neg, NameText s neg (lit "nan") -> coord_from_str s = ROk 0.
Proof.
  split; [reflexivity|]. split; [reflexivity|]. intros s neg H. unfold coord_from_str.
  assert (f64_from_str s = Some B754_nan) as ->; [|reflexivity].
  apply f64_from_str_spec. right; left. now exists neg.
Qed.
Print Assumptions C06_nan_becomes_zero.

(** ** C07 *)

Theorem C07_set_lat_lon_atomic : forall cur l1 l2,
  (exists a b, coord_of_f64 l1 = ROk a /\ coord_of_f64 l2 = ROk b /\
     set_lat_lon cur (Some (l1, l2)) = (Some (a, b), ROk tt)) \/
  (exists e, (coord_of_f64 l1 = RErr e \/ coord_of_f64 l2 = RErr e) /\
     set_lat_lon cur (Some (l1, l2)) = (cur, RErr e)).
Proof.
  intros cur l1 l2. unfold set_lat_lon.
  destruct (coord_of_f64 l1) as [a|e1]; [|right; exists e1; auto].
  destruct (coord_of_f64 l2) as [b|e2]; [left; exists a, b; auto|right; exists e2; auto].
Qed.
Print Assumptions C07_set_lat_lon_atomic.

Theorem C07_set_none : forall cur, set_lat_lon cur None = (None, ROk tt).
Proof. reflexivity. Qed.
Print Assumptions C07_set_none.

Example C07_ex : set_lat_lon (Some (1, 2)) (Some (degrees 5, B754_infinity true)) = (Some (1, 2), RErr TooSmall)
  /\ set_lat_lon (Some (1, 2)) (Some (degrees 5, degrees (-7))) = (Some (5, -7), ROk tt).
Proof. split; reflexivity. Qed.
