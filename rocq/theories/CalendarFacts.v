(** Proofs about calendar arithmetic. *)
From Coq Require Import String ZArith List Bool Lia.
From Coq Require Import ZifyBool ZifyNat.
From Verif Require Import Base Ints SpecNum SpecCal Timestamp.
Import ListNotations.
Open Scope Z_scope.
Local Ltac Zify.zify_post_hook ::= Z.div_mod_to_equations.

(** ** Calendar *)

Lemma days_in_month_range y m : 28 <= days_in_month y m <= 31.
Proof.
  unfold days_in_month. destruct (m =? 2), (leap y), ((m =? 4) || (m =? 6) || (m =? 9) || (m =? 11)); lia.
Qed.

Lemma leap_add400 y k : leap (y + 400 * k) = leap y.
Proof.
  unfold leap.
  replace ((y + 400 * k) mod 4) with (y mod 4) by lia.
  replace ((y + 400 * k) mod 100) with (y mod 100) by lia.
  replace ((y + 400 * k) mod 400) with (y mod 400) by lia.
  easy.
Qed.

Lemma valid_next_day x : valid_date x -> valid_date (next_day x).
Proof.
  destruct x as [y m d]. unfold valid_date, next_day. cbn [d_year d_month d_day].
  intros (Hm & Hd).
  destruct (d <? days_in_month y m) eqn:E; cbn [d_year d_month d_day]; [lia|].
  destruct (m <? 12) eqn:E2; cbn [d_year d_month d_day].
  - pose proof (days_in_month_range y (m + 1)). lia.
  - pose proof (days_in_month_range (y+1) 1). lia.
Qed.

Lemma month_cases m : 1 <= m <= 12 ->
  m = 1 \/ m = 2 \/ m = 3 \/ m = 4 \/ m = 5 \/ m = 6 \/ m = 7 \/ m = 8 \/ m = 9 \/ m = 10
  \/ m = 11 \/ m = 12.
Proof. lia. Qed.

Definition year_start (y : Z) : Z := 365 * (y - 1) + (y - 1) / 4 - (y - 1) / 100 + (y - 1) / 400.

Lemma days_of_civil_eq x :
  days_of_civil x = year_start (d_year x) + days_before_month (d_year x) (d_month x) + d_day x - 719163.
Proof. unfold days_of_civil, year_start. lia. Qed.

Lemma year_start_succ y : year_start (y + 1) = year_start y + (if leap y then 366 else 365).
Proof.
  unfold year_start, leap.
  destruct (y mod 4 =? 0) eqn:A, (y mod 100 =? 0) eqn:B, (y mod 400 =? 0) eqn:C; cbn [andb orb negb]; lia.
Qed.

Lemma days_before_month_succ y m : 1 <= m <= 11 ->
  days_before_month y (m + 1) = days_before_month y m + days_in_month y m.
Proof.
  intros H. unfold days_before_month, days_in_month.
  destruct (month_cases m) as [->|[->|[->|[->|[->|[->|[->|[->|[->|[->|[->| ->]]]]]]]]]]]; try lia;
    cbn; destruct (leap y); easy.
Qed.

Lemma days_of_civil_next x : valid_date x -> days_of_civil (next_day x) = days_of_civil x + 1.
Proof.
  destruct x as [y m d]. unfold valid_date, next_day. cbn [d_year d_month d_day].
  intros (Hm & Hd). rewrite !days_of_civil_eq.
  destruct (d <? days_in_month y m) eqn:E; cbn [d_year d_month d_day]; [lia|].
  destruct (m <? 12) eqn:E2; cbn [d_year d_month d_day].
  - rewrite days_before_month_succ by lia. lia.
  - assert (m = 12) by lia; subst m. rewrite year_start_succ.
    assert (Hx : days_in_month y 12 = 31) by reflexivity. rewrite Hx in *.
    unfold days_before_month. cbn [Z.eqb Z.ltb Z.compare Pos.eqb Pos.compare Pos.compare_cont andb].
    destruct (leap y); lia.
Qed.

(** Strict monotonicity with respect to (year, month, day). *)
Definition date_lt (a b : date) : Prop :=
  d_year a < d_year b \/ (d_year a = d_year b /\
    (d_month a < d_month b \/ (d_month a = d_month b /\ d_day a < d_day b))).

Lemma days_before_month_mono y m m' : 1 <= m -> m < m' -> m' <= 12 ->
  days_before_month y m + days_in_month y m <= days_before_month y m'.
Proof.
  intros H1 H2 H3.
  assert (G : forall k, 0 <= k -> m + 1 + k <= 12 ->
              days_before_month y m + days_in_month y m <= days_before_month y (m + 1 + k)).
  { intros k Hk. pattern k. apply natlike_ind; [| |exact Hk].
    - intros _. replace (m + 1 + 0) with (m+1) by lia. rewrite days_before_month_succ; lia.
    - intros x Hx IH Hb. replace (m + 1 + Z.succ x) with ((m + 1 + x) + 1) by lia.
      rewrite days_before_month_succ by lia.
      pose proof (days_in_month_range y (m + 1 + x)). lia. }
  specialize (G (m' - m - 1)). replace (m + 1 + (m' - m - 1)) with m' in G by lia. lia.
Qed.

Lemma year_start_mono y y' : y < y' -> year_start y + 365 <= year_start y'.
Proof. unfold year_start. lia. Qed.

Lemma year_length y m d : valid_date (Date y m d) ->
  1 <= days_before_month y m + d <= (if leap y then 366 else 365).
Proof.
  unfold valid_date. cbn [d_year d_month d_day]. intros (Hm & Hd).
  unfold days_before_month, days_in_month in *.
  destruct (month_cases m Hm) as [->|[->|[->|[->|[->|[->|[->|[->|[->|[->|[->| ->]]]]]]]]]]];
   destruct (leap y);
   cbn [Z.eqb Pos.eqb Z.ltb Z.compare Pos.compare Pos.compare_cont andb orb] in Hd |- *; lia.
Qed.

Lemma days_of_civil_lt a b : valid_date a -> valid_date b -> date_lt a b ->
  days_of_civil a < days_of_civil b.
Proof.
  intros Ha Hb H. rewrite !days_of_civil_eq.
  destruct a as [y m d], b as [y' m' d']. cbn [d_year d_month d_day] in *.
  pose proof (year_length y m d Ha) as La. pose proof (year_length y' m' d' Hb) as Lb.
  unfold valid_date, date_lt in *. cbn [d_year d_month d_day] in *.
  destruct H as [H|(-> & [H|(-> & H)])]; cbn [d_year d_month d_day] in *.
  - pose proof (year_start_succ y).
    assert (year_start (y + 1) <= year_start y').
    { destruct (Z.eq_dec (y+1) y') as [->|]; [lia|]. pose proof (year_start_mono (y+1) y'). lia. }
    lia.
  - pose proof (days_before_month_mono y' m m'). lia.
  - lia.
Qed.

Lemma date_trichotomy a b : date_lt a b \/ a = b \/ date_lt b a.
Proof.
  destruct a as [y m d], b as [y' m' d']. unfold date_lt. cbn [d_year d_month d_day].
  destruct (Z.lt_trichotomy y y') as [|[->|]]; [now left; left| |now right; right; left].
  destruct (Z.lt_trichotomy m m') as [|[->|]]; [left; right; split; [easy|now left]| |
     right; right; right; split; [easy|now left]].
  destruct (Z.lt_trichotomy d d') as [|[->|]]; [left; right; auto|right; left; easy|
     right; right; right; auto].
Qed.

Lemma days_of_civil_inj a b : valid_date a -> valid_date b ->
  days_of_civil a = days_of_civil b -> a = b.
Proof.
  intros Ha Hb E. destruct (date_trichotomy a b) as [H|[H|H]]; [|easy|].
  - pose proof (days_of_civil_lt a b Ha Hb H). lia.
  - pose proof (days_of_civil_lt b a Hb Ha H). lia.
Qed.

(** [civil_of_days] on one 400-year cycle, by a sweep over its 146097 days. *)
Definition valid_dateb (x : date) : bool :=
  (1 <=? d_month x) && (d_month x <=? 12) && (1 <=? d_day x)
  && (d_day x <=? days_in_month (d_year x) (d_month x)).

Lemma valid_dateb_iff x : valid_dateb x = true <-> valid_date x.
Proof. unfold valid_dateb, valid_date. lia. Qed.

Definition civil_ok (n : Z) : bool :=
  let x := civil_of_days n in valid_dateb x && (days_of_civil x =? n).

Fixpoint civil_sweep (fuel : nat) (n : Z) : bool :=
  match fuel with
  | O => true
  | S f => civil_ok n && civil_sweep f (n + 1)
  end.

Lemma civil_sweep_spec fuel n : civil_sweep fuel n = true ->
  forall k, n <= k < n + Z.of_nat fuel -> civil_ok k = true.
Proof.
  revert n; induction fuel as [|f IH]; intros n H k Hk; [lia|].
  cbn [civil_sweep] in H. apply andb_true_iff in H as (H1 & H2).
  destruct (Z.eq_dec k n) as [->|]; [easy|]. apply (IH (n+1) H2). lia.
Qed.

Lemma civil_cycle_ok : forall k, -719468 <= k < -719468 + 146097 -> civil_ok k = true.
Proof.
  intros k Hk.
  apply (civil_sweep_spec (Z.to_nat 146097) (-719468)).
  - vm_cast_no_check (eq_refl true).
  - lia.
Qed.

Lemma civil_shift n k :
  civil_of_days (n + 146097 * k) =
  let x := civil_of_days n in Date (d_year x + 400 * k) (d_month x) (d_day x).
Proof.
  unfold civil_of_days.
  replace ((n + 146097 * k + 719468) mod 146097) with ((n + 719468) mod 146097) by lia.
  replace ((n + 146097 * k + 719468) / 146097) with ((n + 719468) / 146097 + k) by lia.
  cbn [d_year d_month d_day]. f_equal. lia.
Qed.

Lemma days_of_civil_shift x k :
  days_of_civil (Date (d_year x + 400 * k) (d_month x) (d_day x)) = days_of_civil x + 146097 * k.
Proof.
  rewrite !days_of_civil_eq. cbn [d_year d_month d_day].
  unfold days_before_month. rewrite leap_add400.
  replace (year_start (d_year x + 400 * k)) with (year_start (d_year x) + 146097 * k)
    by (unfold year_start; lia).
  lia.
Qed.

Lemma valid_date_shift x k :
  valid_date x -> valid_date (Date (d_year x + 400 * k) (d_month x) (d_day x)).
Proof.
  unfold valid_date, days_in_month. cbn [d_year d_month d_day]. now rewrite leap_add400.
Qed.

Lemma civil_of_days_ok n : valid_date (civil_of_days n) /\ days_of_civil (civil_of_days n) = n.
Proof.
  set (k := (n + 719468) / 146097). set (r := n - 146097 * k).
  assert (Hr : -719468 <= r < -719468 + 146097) by (subst r k; lia).
  pose proof (civil_cycle_ok r Hr) as H. unfold civil_ok in H. cbn zeta in H.
  apply andb_true_iff in H as (H1 & H2). apply valid_dateb_iff in H1. apply Z.eqb_eq in H2.
  replace n with (r + 146097 * k) by (subst r; lia).
  rewrite civil_shift. cbn zeta. split.
  - now apply valid_date_shift.
  - rewrite days_of_civil_shift. lia.
Qed.

Lemma civil_of_days_succ n : civil_of_days (n + 1) = next_day (civil_of_days n).
Proof.
  destruct (civil_of_days_ok n) as (V & E). destruct (civil_of_days_ok (n+1)) as (V' & E').
  apply days_of_civil_inj; [easy|now apply valid_next_day|].
  rewrite days_of_civil_next by easy. lia.
Qed.

Lemma DayNumber_civil n : DayNumber n (civil_of_days n).
Proof.
  assert (E0 : civil_of_days 0 = Date 1970 1 1) by reflexivity.
  destruct (Z.le_gt_cases 0 n) as [H|H].
  - revert n H. apply natlike_ind.
    + rewrite E0. constructor.
    + intros x Hx IH. unfold Z.succ. rewrite civil_of_days_succ. now constructor.
  - replace n with (- (- n)) by lia. assert (Hn : 0 <= - n) by lia.
    generalize dependent (- n). clear H n. intros m Hm. pattern m. revert m Hm.
    apply natlike_ind.
    + change (- 0) with 0. rewrite E0. constructor.
    + intros x Hx IH. apply DN_prev.
      * apply civil_of_days_ok.
      * rewrite <- civil_of_days_succ. now replace (- Z.succ x + 1) with (- x) by lia.
Qed.

Lemma DayNumber_sound n x : DayNumber n x -> valid_date x /\ days_of_civil x = n.
Proof.
  induction 1 as [|n x H (V & IH)|n x V H (V' & IH)].
  - split; [|reflexivity]. unfold valid_date. cbn. lia.
  - split; [now apply valid_next_day|]. rewrite days_of_civil_next by easy. lia.
  - split; [easy|]. rewrite days_of_civil_next in IH by easy. lia.
Qed.

Lemma DayNumber_iff n x : DayNumber n x <-> valid_date x /\ days_of_civil x = n.
Proof.
  split; [apply DayNumber_sound|]. intros (V & E).
  replace x with (civil_of_days n); [apply DayNumber_civil|].
  destruct (civil_of_days_ok n) as (V' & E'). apply days_of_civil_inj; [easy|easy|]. lia.
Qed.

