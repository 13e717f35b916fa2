(** C117: the program osmio-pbf-read-speed. *)
From Coq Require Import String ZArith List Bool Lia.
From Coq Require Import ZifyBool ZifyNat.
From Verif Require Import Base SpecNum Ints SpecIter PbWire PbMsg PbfRead Speed.
From Coq Require Import Sorted.
Import ListNotations.
Open Scope Z_scope.

(** ** Specification *)

(** Groups of three digits, the first of one to three. *)
Definition grouped (gs : list str) : Prop :=
  exists g r, gs = g :: r /\ (1 <= length g <= 3)%nat /\ Forall (fun h => length h = 3%nat) r.
Fixpoint with_commas (gs : list str) : str :=
  match gs with [] => [] | [g] => g | g :: r => g ++ lit "," ++ with_commas r end.
(** A number as the program prints it: [t] is the number in decimal, without leading
    zeros, in such groups. *)
Definition Grouped (n : Z) (t : str) : Prop :=
  exists gs, grouped gs /\ t = with_commas gs /\ Forall is_digit (concat gs) /\ dec_value (concat gs) = n
    /\ (concat gs = lit "0" \/ hd 48 (concat gs) <> 48).

(** ** Separators *)

Lemma separate_app a b : forall later place, (length b <= place)%nat -> place = (length a + length b)%nat ->
  separate later place (a ++ b) = separate later place a ++ separate (later || negb (Nat.eqb (length a) 0)) (length b) b.
Proof.
  induction a as [|c a IH]; intros later place L E.
  - cbn [app separate length Nat.eqb negb] in *. rewrite orb_false_r. now replace place with (length b).
  - cbn [app separate length Nat.eqb negb] in *. rewrite IH by lia. rewrite <- app_assoc. cbn [app]. now rewrite orb_true_r.
Qed.

Lemma mod3_add k m : (((k * 3) + m) mod 3 = m mod 3)%nat.
Proof. rewrite Nat.add_comm. apply Nat.mod_add. lia. Qed.

Lemma separate_groups r : Forall (fun h => length h = 3%nat) r ->
  separate true (length (concat r)) (concat r) = concat (map (fun h => lit "," ++ h) r).
Proof.
  induction 1 as [|h r Hh Hr IH]; [reflexivity|]. cbn [concat map].
  assert (K : exists k, length (concat r) = (k * 3)%nat).
  { clear - Hr. induction Hr as [|h r Hh Hr (k & IH)]; [now exists 0%nat|]. exists (S k). cbn [concat]. rewrite app_length, Hh, IH. lia. }
  destruct K as (k & K).
  rewrite separate_app by (rewrite app_length; lia). cbn [orb]. rewrite IH. f_equal.
  destruct h as [|x [|y [|z [|]]]]; try discriminate Hh. rewrite app_length, K. cbn [length separate Nat.pred].
  replace (3 + k * 3)%nat with (S k * 3 + 0)%nat by lia. rewrite mod3_add.
  replace (Nat.pred (S k * 3 + 0)) with (k * 3 + 2)%nat by lia. rewrite mod3_add.
  replace (Nat.pred (k * 3 + 2)) with (k * 3 + 1)%nat by lia. rewrite mod3_add.
  reflexivity.
Qed.

Lemma with_commas_concat g r : with_commas (g :: r) = g ++ concat (map (fun h => lit "," ++ h) r).
Proof.
  revert g. induction r as [|h r IH]; intros g; [cbn; now rewrite app_nil_r|].
  change (with_commas (g :: h :: r)) with (g ++ lit "," ++ with_commas (h :: r)). rewrite IH. cbn [map concat]. now rewrite <- !app_assoc.
Qed.

Lemma separate_grouped gs : grouped gs -> separate false (length (concat gs)) (concat gs) = with_commas gs.
Proof.
  intros (g & r & -> & Hg & Hr). rewrite with_commas_concat. cbn [concat].
  rewrite separate_app by (rewrite app_length; lia).
  assert (G : negb (Nat.eqb (length g) 0) = true) by lia. rewrite G. cbn [orb]. rewrite separate_groups by exact Hr. f_equal.
  assert (K : exists k, length (concat r) = (k * 3)%nat).
  { clear - Hr. induction Hr as [|h r Hh Hr (k & IH)]; [now exists 0%nat|]. exists (S k). cbn [concat]. rewrite app_length, Hh, IH. lia. }
  destruct K as (k & K). rewrite app_length, K.
  destruct g as [|x [|y [|z [|]]]]; cbn [length] in *; try lia; cbn [separate andb app].
  - reflexivity.
  - replace (Nat.pred (2 + k * 3)) with (k * 3 + 1)%nat by lia. now rewrite mod3_add.
  - replace (Nat.pred (3 + k * 3)) with (k * 3 + 2)%nat by lia. rewrite mod3_add.
    replace (Nat.pred (k * 3 + 2)) with (k * 3 + 1)%nat by lia. now rewrite mod3_add.
Qed.

Lemma can_group : forall n s, (1 <= length s <= n)%nat -> exists gs, grouped gs /\ concat gs = s.
Proof.
  induction n as [|n IH]; intros s L; [lia|].
  destruct (Nat.le_gt_cases (length s) 3) as [S3|S3].
  - exists [s]. split; [|cbn; apply app_nil_r]. exists s, []. repeat split; [lia|lia|constructor].
  - destruct (IH (firstn (length s - 3) s)) as (gs & (g & r & -> & Hg & Hr) & E); [rewrite firstn_length; lia|].
    exists ((g :: r) ++ [skipn (length s - 3) s]). split.
    + exists g, (r ++ [skipn (length s - 3) s]). split; [reflexivity|]. split; [exact Hg|]. apply Forall_app. split; [exact Hr|].
      constructor; [rewrite skipn_length; lia|constructor].
    + rewrite concat_app, E. cbn [concat]. rewrite app_nil_r. apply firstn_skipn.
Qed.

Definition canonical (ds : str) : Prop := Forall is_digit ds /\ ds <> [] /\ (ds = lit "0" \/ hd 48 ds <> 48).

Lemma canonical_bounds d : canonical d -> d <> lit "0" -> 10 ^ Z.of_nat (length d - 1) <= dec_value d < 10 ^ Z.of_nat (length d).
Proof.
  intros (F & N & [Z0|Z0]) D; [easy|]. split; [|now apply dec_value_bound]. destruct d as [|c r]; [easy|]. cbn [hd] in Z0.
  pose proof (Forall_inv F) as Hc. unfold is_digit in Hc. pose proof (dec_value_nonneg r (Forall_inv_tail F)).
  cbn [dec_value length]. replace (S (length r) - 1)%nat with (length r) by lia. pose proof (pow10_pos (length r)). nia.
Qed.
Lemma same_length_inj : forall a b, Forall is_digit a -> Forall is_digit b -> length a = length b -> dec_value a = dec_value b -> a = b.
Proof.
  induction a as [|x a IH]; intros [|y b] Fa Fb L E; try discriminate; [reflexivity|]. cbn [length dec_value] in *. injection L as L.
  pose proof (dec_value_bound a (Forall_inv_tail Fa)). pose proof (dec_value_bound b (Forall_inv_tail Fb)).
  pose proof (dec_value_nonneg a (Forall_inv_tail Fa)). pose proof (dec_value_nonneg b (Forall_inv_tail Fb)).
  rewrite L in *. pose proof (pow10_pos (length b)).
  assert (x = y) by nia. subst y. f_equal. apply IH; [now apply (Forall_inv_tail (a:=x))|now apply (Forall_inv_tail (a:=x))|reflexivity|lia].
Qed.
Lemma canonical_unique a b : canonical a -> canonical b -> dec_value a = dec_value b -> a = b.
Proof.
  intros Ha Hb E.
  assert (Z0 : dec_value (lit "0") = 0) by reflexivity.
  destruct (list_eq_dec Z.eq_dec a (lit "0")) as [Ea|Ea], (list_eq_dec Z.eq_dec b (lit "0")) as [Eb|Eb]; try congruence.
  - subst a. pose proof (canonical_bounds b Hb Eb) as [B _]. pose proof (pow10_pos (length b - 1)). lia.
  - subst b. pose proof (canonical_bounds a Ha Ea) as [B _]. pose proof (pow10_pos (length a - 1)). lia.
  - pose proof (canonical_bounds a Ha Ea) as [A1 A2]. pose proof (canonical_bounds b Hb Eb) as [B1 B2].
    destruct Ha as (Fa & Na & _), Hb as (Fb & Nb & _). apply same_length_inj; try assumption.
    assert (LA : (0 < length a)%nat) by (destruct a; [easy|cbn; lia]). assert (LB : (0 < length b)%nat) by (destruct b; [easy|cbn; lia]).
    destruct (Nat.lt_trichotomy (length a) (length b)) as [L|[L|L]]; [|exact L|].
    + assert (10 ^ Z.of_nat (length a) <= 10 ^ Z.of_nat (length b - 1)) by (apply Z.pow_le_mono_r; lia). lia.
    + assert (10 ^ Z.of_nat (length b) <= 10 ^ Z.of_nat (length a - 1)) by (apply Z.pow_le_mono_r; lia). lia.
Qed.

Lemma show_digits_head fuel : forall n, 0 < n < 2 ^ Z.of_nat fuel -> (0 < fuel)%nat -> hd 48 (show_digits fuel n []) <> 48.
Proof.
  induction fuel as [|f IH]; intros n B L; [lia|]. cbn [show_digits]. destruct (n <? 10) eqn:E; [cbn; rewrite Z.mod_small by lia; lia|].
  rewrite show_digits_app. assert (Hf : (0 < f)%nat) by (destruct f; [cbn in B; lia|lia]).
  rewrite Nat2Z.inj_succ, Z.pow_succ_r in B by lia.
  assert (B' : 0 < n / 10 < 2 ^ Z.of_nat f) by (split; [apply Z.div_str_pos; lia|apply Z.div_lt_upper_bound; lia]).
  specialize (IH (n / 10) B' Hf). destruct (show_digits_spec f (n / 10)) as (_ & Q & _); [lia|lia|lia|].
  destruct (show_digits f (n / 10) []); [easy|exact IH].
Qed.
Lemma show_uint_canonical n : 0 <= n -> canonical (show_uint n).
Proof.
  intros H. destruct (show_uint_spec n H) as (A & B & _). split; [exact A|]. split; [exact B|].
  destruct (Z.eq_dec n 0) as [->|N]; [left; reflexivity|right]. unfold show_uint. pose proof (Z.log2_nonneg n). apply show_digits_head; [|lia].
  split; [lia|]. rewrite Z2Nat.id by lia. apply Z.log2_spec. lia.
Qed.

(** ** C117 *)

(** The number printed is the decimal number in groups of three digits, and there is only
    one such text. *)
Theorem C117_separated : forall n t, 0 <= n -> Grouped n t <-> t = separated n.
Proof.
  intros n t Hn. pose proof (show_uint_canonical n Hn) as C. destruct (show_uint_spec n Hn) as (A & B & V). split.
  - intros (gs & G & -> & F & E & Z0). unfold separated. rewrite <- (separate_grouped gs G).
    assert (Q : concat gs = show_uint n).
    { apply canonical_unique; [|exact C|congruence]. split; [exact F|]. split; [|exact Z0].
      destruct G as (g & r & -> & L & _). destruct g; [cbn in L; lia|discriminate]. }
    now rewrite Q.
  - intros ->. destruct (can_group (length (show_uint n)) (show_uint n)) as (gs & G & E); [destruct (show_uint n); [easy|cbn; lia]|].
    exists gs. unfold separated. rewrite <- E, (separate_grouped gs G), E. destruct C as (C1 & _ & C2). now repeat split.
Qed.
Print Assumptions C117_separated.

(** The [j]th time that a million objects have been seen ([j] from 0), the clock is read
    for the [j+1]st time after the start. *)
Definition time (now : nat -> Z) (j : Z) : Z := now (Z.to_nat j + 1)%nat.
(** Of the lines for the [js] the time of the last one before the [j]th, at first that of the start. *)
Definition last_time (now : nat -> Z) (start : Z) (js : list Z) (j : Z) : Z :=
  last (map (time now) (filter (fun i => i <? j) js)) start.
(** More than 1000 whole milliseconds. *)
Definition late (t since : Z) : Prop := 1001 * 1000000 <= t - since.
(** How many times a million objects, or none, have been seen before the [n]th. *)
Definition marks (n : Z) : Z := (n + 999999) / 1000000.

(** The lines printed. *)
Definition progress_line (seconds : Z -> str) (rate : Z -> Z -> str) (n ms : Z) (t : str) : Prop :=
  exists g, Grouped n g /\
    t = lit "Processed " ++ g ++ lit " objects so far. Total time " ++ seconds ms ++ lit " s. " ++ rate n ms ++ lit " objects/sec" ++ [10].
Definition final_lines (seconds : Z -> str) (rate : Z -> Z -> str) (n ms : Z) (t : str) : Prop :=
  exists g, Grouped n g /\
    t = [10] ++ lit "Processed " ++ g ++ lit " objects in " ++ seconds ms ++ lit " s. " ++ rate n ms ++ lit " objects/sec" ++ [10].

Lemma last_cons {A} (x : A) l d : last (x :: l) d = last l x.
Proof.
  revert x d. induction l as [|y l IH]; intros x d; [reflexivity|].
  change (last (x :: y :: l) d) with (last (y :: l) d). now rewrite (IH y d), (IH y x).
Qed.
Lemma filter_none (js : list Z) j : Forall (fun i => j <= i) js -> filter (fun i => i <? j) js = [].
Proof. induction 1 as [|i js Hi _ IH]; [reflexivity|]. cbn [filter]. now replace (i <? j) with false by lia. Qed.

Lemma millis_late t since : (1000 <? millis t since) = true <-> late t since.
Proof.
  unfold millis, late. rewrite Z.ltb_lt. split; intros H.
  - assert (1001 <= Z.max 0 (t - since) / 1000000) by lia.
    assert (1000000 * 1001 <= Z.max 0 (t - since)) by (pose proof (Z.mul_div_le (Z.max 0 (t - since)) 1000000); lia). lia.
  - assert (1001 <= Z.max 0 (t - since) / 1000000) by (apply Z.div_le_lower_bound; lia). lia.
Qed.

Lemma loop_lines now seconds rate {A} (os : list A) : forall k n last, 0 <= n -> k = (Z.to_nat (marks n) + 1)%nat ->
  exists js, StronglySorted Z.lt js /\ Forall (fun i => marks n <= i) js
    /\ (forall j, marks n <= j -> (In j js <-> 1000000 * j < n + Z.of_nat (length os) /\ late (time now j) (last_time now last js j)))
    /\ speed_loop now seconds rate os k n last =
       (concat (map (fun j => so_far seconds rate (1000000 * j) (millis (time now j) (now 0%nat))) js),
        (Z.to_nat (marks (n + Z.of_nat (length os))) + 1)%nat, n + Z.of_nat (length os)).
Proof.
  induction os as [|o os IH]; intros k n last0 Hn Hk; cbn [speed_loop length].
  - exists []. rewrite !Z.add_0_r. split; [constructor|]. split; [constructor|]. split; [|now rewrite Hk].
    intros j Hj. split; [easy|]. intros [L _]. exfalso. unfold marks in Hj.
    pose proof (Z.mul_div_le (n + 999999) 1000000). pose proof (Z.mul_succ_div_gt (n + 999999) 1000000). lia.
  - replace (n + Z.of_nat (S (length os))) with (n + 1 + Z.of_nat (length os)) by lia.
    destruct (n mod 1000000 =? 0) eqn:E.
    + apply Z.eqb_eq in E. apply Z.mod_divide in E as (j0 & ->); [|lia].
      assert (M : marks (j0 * 1000000) = j0).
      { unfold marks. rewrite Z.add_comm, Z.div_add by lia. reflexivity. }
      assert (M1 : marks (j0 * 1000000 + 1) = j0 + 1).
      { unfold marks. replace (j0 * 1000000 + 1 + 999999) with (0 + (j0 + 1) * 1000000) by lia. rewrite Z.div_add by lia. reflexivity. }
      assert (J : 0 <= j0) by lia. rewrite M in *.
      assert (T : now k = time now j0) by (unfold time; now rewrite Hk). rewrite T.
      assert (Hk' : S k = (Z.to_nat (marks (j0 * 1000000 + 1)) + 1)%nat) by lia.
      destruct (1000 <? millis (time now j0) last0) eqn:L.
      * apply millis_late in L. destruct (IH (S k) (j0 * 1000000 + 1) (time now j0) ltac:(lia) Hk') as (js & S1 & F & Q & ->).
        rewrite M1 in *. exists (j0 :: js). split; [|split; [|split]].
        -- constructor; [exact S1|]. eapply Forall_impl; [|exact F]. cbn. intros; lia.
        -- constructor; [lia|]. eapply Forall_impl; [|exact F]. cbn. intros; lia.
        -- intros j Hj. destruct (Z.eq_dec j j0) as [->|N].
           ++ split; [intros _|intros _; now left]. split; [lia|]. unfold last_time. rewrite filter_none; [exact L|].
              constructor; [lia|]. eapply Forall_impl; [|exact F]. cbn. intros; lia.
           ++ cbn [In]. rewrite (Q j) by lia. unfold last_time. cbn [filter]. replace (j0 <? j) with true by lia. cbn [map].
              rewrite last_cons. split; [intros [|]; [lia|assumption]|now right].
        -- cbn [map concat]. now rewrite (Z.mul_comm 1000000 j0).
      * destruct (IH (S k) (j0 * 1000000 + 1) last0 ltac:(lia) Hk') as (js & S1 & F & Q & ->).
        rewrite M1 in *. exists js. split; [exact S1|]. split; [eapply Forall_impl; [|exact F]; cbn; intros; lia|]. split; [|reflexivity].
        intros j Hj. destruct (Z.eq_dec j j0) as [->|N]; [|apply Q; lia]. split.
        -- intros I. rewrite Forall_forall in F. specialize (F j0 I). lia.
        -- unfold last_time. rewrite filter_none by (eapply Forall_impl; [|exact F]; cbn; intros; lia). cbn [map last].
           intros [_ H]. apply millis_late in H. congruence.
    + assert (M1 : marks (n + 1) = marks n).
      { unfold marks. apply Z.eqb_neq in E. pose proof (Z.div_mod n 1000000 ltac:(lia)) as D. pose proof (Z.mod_pos_bound n 1000000 ltac:(lia)) as B.
        set (q := n / 1000000) in *. set (r := n mod 1000000) in *.
        replace (n + 1 + 999999) with (r + (q + 1) * 1000000) by lia. replace (n + 999999) with ((r - 1) + (q + 1) * 1000000) by lia.
        rewrite !Z.div_add, !Z.div_small by lia. reflexivity. }
      destruct (IH k (n + 1) last0 ltac:(lia)) as (js & S1 & F & Q & ->); [now rewrite M1|]. rewrite M1 in *. now exists js.
Qed.

(** For any clock, any number of objects, whether the reader gets to the end or stops
    with a panic: which lines are printed.  [js] are the progress lines, one for the
    [j]th million objects if more than a second has passed since the line before, or
    the start; the final line has the number of objects and comes only at the end of the file. *)
Theorem C117_report : forall now seconds rate rt chk inflate src os r, Runs (s_next rt chk inflate) (s_new src) os r ->
  let n := Z.of_nat (length os) in let start := now 0%nat in
  exists js lines final, speed now seconds rate os (match r with Ret _ => true | Panic => false end) = concat lines ++ final
    /\ StronglySorted Z.lt js
    /\ (forall j, In j js <-> 0 <= j /\ 1000000 * j < n /\ late (time now j) (last_time now start js j))
    /\ Forall2 (fun j t => progress_line seconds rate (1000000 * j) (millis (time now j) start) t) js lines
    /\ match r with
       | Ret _ => final_lines seconds rate n (millis (time now (marks n)) start) final
       | Panic => final = []
       end.
Proof.
  intros now seconds rate rt chk inflate src os r _. cbv zeta.
  destruct (loop_lines now seconds rate os 1 0 (now 0%nat)) as (js & S & F & Q & E); [lia|reflexivity|].
  unfold speed. rewrite E. rewrite !Z.add_0_l in *. change (marks 0) with 0 in *.
  exists js, (map (fun j => so_far seconds rate (1000000 * j) (millis (time now j) (now 0%nat))) js),
    (match r with Ret _ => in_all seconds rate (Z.of_nat (length os)) (millis (time now (marks (Z.of_nat (length os)))) (now 0%nat)) | Panic => [] end).
  split; [now destruct r|]. split; [exact S|]. split; [|split].
  - intros j. split.
    + intros I. assert (0 <= j) by (rewrite Forall_forall in F; now apply F). split; [assumption|]. now apply Q.
    + intros (H & H'). now apply Q.
  - clear - F. induction F as [|j js Hj _ IH]; [constructor|]. cbn [map]. constructor; [|exact IH].
    exists (separated (1000000 * j)). split; [now apply C117_separated; [lia|]|reflexivity].
  - destruct r; [|reflexivity]. exists (separated (Z.of_nat (length os))). split; [now apply C117_separated; [lia|]|reflexivity].
Qed.
Print Assumptions C117_report.

(** Two million and one objects, the clock showing 0, 0.5, 1.6, 2.9 and 3 seconds. *)
Example C117_ex : let now k := nth k [0; 500000000; 1600000000; 2900000000; 3000000000] 0 in
  late (time now 1) (last_time now 0 [1; 2] 1) /\ late (time now 2) (last_time now 0 [1; 2] 2) /\ ~ late (time now 0) (last_time now 0 [1; 2] 0)
  /\ separated 2000001 = lit "2,000,001" /\ separated 0 = lit "0" /\ separated 123456 = lit "123,456" /\ separated 999 = lit "999".
Proof. unfold late. repeat split; vm_compute; congruence. Qed.
