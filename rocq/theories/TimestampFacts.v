(** Proofs about timestamps. *)
From Coq Require Import String ZArith List Bool Lia.
From Coq Require Import ZifyBool ZifyNat.
From Verif Require Import Base Ints SpecNum SpecCal Timestamp CalendarFacts.
Import ListNotations.
Open Scope Z_scope.
Local Ltac Zify.zify_post_hook ::= Z.div_mod_to_equations.

(** ** The RFC 3339 parser *)

Lemma scan2_spec s v r : scan2 s = Some (v, r) <-> 0 <= v <= 99 /\ s = two v ++ r.
Proof.
  unfold scan2, two. split.
  - destruct s as [|a [|b s]]; try easy.
    destruct (digitb a && digitb b) eqn:E; [|easy].
    apply andb_true_iff in E as (Ea & Eb). apply digitb_iff in Ea, Eb. unfold is_digit in *.
    intros [= <- <-]. split; [lia|]. cbn [app]. f_equal; [lia|]. f_equal. lia.
  - intros (Hv & ->). cbn [app].
    assert (E : digitb (48 + v / 10) && digitb (48 + v mod 10) = true)
      by (unfold digitb; lia).
    rewrite E. f_equal. f_equal. lia.
Qed.

Lemma scan4_spec s v r : scan4 s = Some (v, r) <-> 0 <= v <= 9999 /\ s = four v ++ r.
Proof.
  unfold scan4, four. split.
  - intros H. destruct (scan2 s) as [[a r1]|] eqn:E1; [|easy]. cbn in H.
    destruct (scan2 r1) as [[b r2]|] eqn:E2; [|easy]. cbn in H. injection H as <- <-.
    apply scan2_spec in E1 as (H1 & ->). apply scan2_spec in E2 as (H2 & ->).
    split; [lia|]. rewrite <- app_assoc.
    replace ((100 * a + b) / 100) with a by lia. now replace ((100 * a + b) mod 100) with b by lia.
  - intros (Hv & ->).
    assert (E1 : scan2 ((two (v / 100) ++ two (v mod 100)) ++ r)
                 = Some (v / 100, two (v mod 100) ++ r)).
    { apply scan2_spec. split; [lia|]. now rewrite app_assoc. }
    rewrite E1. cbn [opt_bind].
    assert (E2 : scan2 (two (v mod 100) ++ r) = Some (v mod 100, r)).
    { apply scan2_spec. split; [lia|easy]. }
    rewrite E2. cbn [opt_bind]. f_equal. f_equal. lia.
Qed.

Lemma scan_char_spec c s r : scan_char c s = Some r <-> s = c :: r.
Proof.
  unfold scan_char. destruct s as [|a s]; [easy|].
  destruct (a =? c) eqn:E; split; intros H; try easy.
  - injection H as <-. f_equal. lia.
  - now injection H as -> ->.
  - injection H as -> ->. lia.
Qed.

Lemma skip_digits_spec s : exists ds, Forall is_digit ds /\ s = ds ++ skip_digits s
  /\ (forall c r, skip_digits s = c :: r -> ~ is_digit c).
Proof.
  induction s as [|c s (ds & H1 & H2 & H3)]; cbn.
  - exists []. repeat split; [constructor|easy].
  - destruct (digitb c) eqn:E.
    + exists (c :: ds). split; [constructor; [now apply digitb_iff|easy]|].
      split; [cbn; now f_equal|easy].
    + exists []. split; [constructor|]. split; [easy|].
      intros c' r' [= <- <-] H. apply digitb_iff in H. congruence.
Qed.

Lemma skip_digits_app ds s : Forall is_digit ds ->
  (forall c r, s = c :: r -> ~ is_digit c) -> skip_digits (ds ++ s) = s.
Proof.
  intros H Hs. induction H as [|c r Hc Hr IH]; cbn.
  - destruct s as [|c s]; [easy|]. cbn.
    destruct (digitb c) eqn:E; [|easy]. apply digitb_iff in E. now apply (Hs c s) in E.
  - apply digitb_iff in Hc. now rewrite Hc.
Qed.

Lemma scan_fraction_sound s r : scan_fraction s = Some r ->
  exists fr, FractionText fr /\ s = fr ++ r.
Proof.
  unfold scan_fraction. destruct s as [|c s]; [intros [= <-]; exists []; split; [constructor|easy]|].
  destruct (c =? 46) eqn:E; [|intros [= <-]; exists []; split; [constructor|easy]].
  destruct s as [|d s]; [easy|]. destruct (digitb d) eqn:Ed; [|easy]. intros [= <-].
  destruct (skip_digits_spec (d :: s)) as (ds & H1 & H2 & H3).
  exists (lit "." ++ ds). split.
  - constructor; [|easy]. intros ->. cbn [app] in H2.
    symmetry in H2. apply (H3 d s H2). now apply digitb_iff.
  - change (lit ".") with [46]. cbn [app]. f_equal; [lia|].
    cbn [skip_digits] in *. rewrite Ed in *. exact H2.
Qed.

Lemma scan_fraction_complete fr r : FractionText fr ->
  (forall c r', r = c :: r' -> ~ is_digit c /\ c <> 46) ->
  scan_fraction (fr ++ r) = Some r.
Proof.
  intros H Hr. destruct H as [|ds Hne HF].
  - cbn. destruct r as [|c r]; [easy|]. cbn.
    destruct (c =? 46) eqn:E; [|easy]. destruct (Hr c r eq_refl) as (_ & Hx). lia.
  - change (lit ".") with [46]. cbn [app scan_fraction]. rewrite Z.eqb_refl.
    destruct ds as [|d ds]; [easy|]. cbn [app].
    assert (Hd : digitb d = true) by (apply digitb_iff; now inversion HF).
    rewrite Hd. f_equal. apply (skip_digits_app (d :: ds) r HF).
    intros c r' E. now apply Hr in E.
Qed.

Lemma two_small n : 0 <= n <= 99 -> forall c r, two n = c :: r -> is_digit c.
Proof. unfold two, is_digit. intros H c r [= <- <-]. lia. Qed.

Lemma scan_offset_spec s v : 
  (exists r, scan_offset s = Some (v, r) /\ r = [] /\ -86400 < v < 86400) <-> OffsetText s v.
Proof.
  split.
  - intros (r & H & -> & Hv). unfold scan_offset in H. destruct s as [|c s]; [easy|].
    destruct ((c =? 90) || (c =? 122)) eqn:E.
    { injection H as <- ->. assert (c = 90 \/ c = 122) as [->| ->] by lia; constructor. }
    destruct ((c =? 43) || (c =? 45) || (c =? 8722)) eqn:E2; [|easy].
    destruct (scan2 s) as [[h r1]|] eqn:S1; [|easy]. cbn [opt_bind] in H.
    destruct (scan_char 58 r1) as [r2|] eqn:S2; [|easy]. cbn [opt_bind] in H.
    destruct (scan2 r2) as [[m r3]|] eqn:S3; [|easy]. cbn [opt_bind] in H.
    destruct (m <=? 59) eqn:Em; [|easy]. injection H as <- ->.
    apply scan2_spec in S1 as (H1 & ->). apply scan_char_spec in S2 as ->.
    apply scan2_spec in S3 as (H3 & ->). rewrite app_nil_r.
    destruct (c =? 43) eqn:Ec.
    + assert (c = 43) by lia; subst c. apply OT_plus; lia.
    + apply OT_minus; lia.
  - intros H. destruct H as [| |h m Hh Hm|h m c Hh Hm Hc].
    + exists []. repeat split; lia.
    + exists []. repeat split; lia.
    + exists []. split; [|split; [easy|lia]].
      change (lit "+") with [43]. change (lit ":") with [58].
      unfold scan_offset. cbn [app]. cbn [Z.eqb Pos.eqb orb].
      replace (scan2 (two h ++ 58 :: two m)) with (Some (h, 58 :: two m))
        by (symmetry; apply scan2_spec; split; [lia|easy]).
      cbn [opt_bind]. replace (scan_char 58 (58 :: two m)) with (Some (two m))
        by (symmetry; now apply scan_char_spec).
      cbn [opt_bind]. replace (scan2 (two m)) with (Some (m, @nil Z))
        by (symmetry; apply scan2_spec; split; [lia|now rewrite app_nil_r]).
      cbn [opt_bind]. assert (Em : m <=? 59 = true) by lia. now rewrite Em.
    + exists []. split; [|split; [easy|lia]].
      change (lit ":") with [58].
      unfold scan_offset. cbn [app].
      assert (E1 : (c =? 90) || (c =? 122) = false) by lia. rewrite E1.
      assert (E2 : (c =? 43) || (c =? 45) || (c =? 8722) = true) by lia. rewrite E2.
      replace (scan2 (two h ++ 58 :: two m)) with (Some (h, 58 :: two m))
        by (symmetry; apply scan2_spec; split; [lia|easy]).
      cbn [opt_bind]. replace (scan_char 58 (58 :: two m)) with (Some (two m))
        by (symmetry; now apply scan_char_spec).
      cbn [opt_bind]. replace (scan2 (two m)) with (Some (m, @nil Z))
        by (symmetry; apply scan2_spec; split; [lia|now rewrite app_nil_r]).
      cbn [opt_bind]. assert (Em : m <=? 59 = true) by lia. rewrite Em.
      assert (E3 : c =? 43 = false) by lia. now rewrite E3.
Qed.

Lemma offset_head s v : OffsetText s v -> forall c r, s = c :: r -> ~ is_digit c /\ c <> 46.
Proof.
  unfold is_digit. intros [| |h m Hh Hm|h m c Hh Hm Hc] c' r; cbn; intros [= <- <-]; lia.
Qed.

Lemma parse_rfc3339_spec s t : parse_rfc3339 s = Some t <-> RFC3339 s t.
Proof.
  split.
  - unfold parse_rfc3339. intros H.
    destruct (scan4 s) as [[y s1]|] eqn:S1; [|easy]. cbn [opt_bind] in H.
    destruct (scan_char 45 s1) as [s2|] eqn:S2; [|easy]. cbn [opt_bind] in H.
    destruct (scan2 s2) as [[mo s3]|] eqn:S3; [|easy]. cbn [opt_bind] in H.
    destruct (scan_char 45 s3) as [s4|] eqn:S4; [|easy]. cbn [opt_bind] in H.
    destruct (scan2 s4) as [[d s5]|] eqn:S5; [|easy]. cbn [opt_bind] in H.
    destruct s5 as [|sep s6]; [easy|].
    destruct ((sep =? 84) || (sep =? 116) || (sep =? 32)) eqn:Esep; [|easy].
    destruct (scan2 s6) as [[h s7]|] eqn:S7; [|easy]. cbn [opt_bind] in H.
    destruct (scan_char 58 s7) as [s8|] eqn:S8; [|easy]. cbn [opt_bind] in H.
    destruct (scan2 s8) as [[mi s9]|] eqn:S9; [|easy]. cbn [opt_bind] in H.
    destruct (scan_char 58 s9) as [s10|] eqn:S10; [|easy]. cbn [opt_bind] in H.
    destruct (scan2 s10) as [[sec s11]|] eqn:S11; [|easy]. cbn [opt_bind] in H.
    destruct (scan_fraction s11) as [s12|] eqn:S12; [|easy]. cbn [opt_bind] in H.
    destruct (scan_offset s12) as [[off s13]|] eqn:S13; [|easy]. cbn [opt_bind] in H.
    destruct s13 as [|? ?]; [|easy].
    match type of H with (if ?b then _ else _) = _ => destruct b eqn:Eb; [|easy] end.
    assert (Ht : t = days_of_civil (Date y mo d) * 86400 + h * 3600 + mi * 60
                       + Z.min sec 59 - off) by congruence. clear H.
    apply scan4_spec in S1 as (B1 & ->). apply scan_char_spec in S2 as ->.
    apply scan2_spec in S3 as (B3 & ->). apply scan_char_spec in S4 as ->.
    apply scan2_spec in S5 as (B5 & ->).
    apply scan2_spec in S7 as (B7 & ->). apply scan_char_spec in S8 as ->.
    apply scan2_spec in S9 as (B9 & ->). apply scan_char_spec in S10 as ->.
    apply scan2_spec in S11 as (B11 & ->).
    apply scan_fraction_sound in S12 as (fr & Hfr & ->).
    assert (Ho : OffsetText s12 off).
    { apply scan_offset_spec. exists []. repeat split; [easy|lia|lia]. }
    exists (days_of_civil (Date y mo d)), (Date y mo d), h, mi, sec, sep, fr, off, s12.
    assert (V : valid_date (Date y mo d)).
    { unfold valid_date. cbn [d_year d_month d_day]. lia. }
    split; [apply DayNumber_iff; split; easy|]. split; [easy|].
    cbn [d_year d_month d_day].
    repeat (split; [first [easy|lia]|]). easy.
  - intros (n & x & h & mi & sec & sep & fr & off & otxt & HD & V & Hy & Hh & Hmi & Hs & Hsep
            & Hfr & Hoff & -> & ->).
    apply DayNumber_iff in HD as (_ & HD).
    destruct x as [y mo d]. unfold valid_date in V. cbn [d_year d_month d_day] in *.
    pose proof (days_in_month_range y mo).
    unfold parse_rfc3339.
    change (lit "-") with [45]. change (lit ":") with [58]. cbn [app].
    erewrite (proj2 (scan4_spec _ y _)) by (split; [lia|reflexivity]). cbn [opt_bind].
    erewrite (proj2 (scan_char_spec _ _ _)) by reflexivity. cbn [opt_bind].
    erewrite (proj2 (scan2_spec _ mo _)) by (split; [lia|reflexivity]). cbn [opt_bind].
    erewrite (proj2 (scan_char_spec _ _ _)) by reflexivity. cbn [opt_bind].
    erewrite (proj2 (scan2_spec _ d _)) by (split; [lia|reflexivity]). cbn [opt_bind].
    assert (Es : (sep =? 84) || (sep =? 116) || (sep =? 32) = true) by lia. rewrite Es.
    erewrite (proj2 (scan2_spec _ h _)) by (split; [lia|reflexivity]). cbn [opt_bind].
    erewrite (proj2 (scan_char_spec _ _ _)) by reflexivity. cbn [opt_bind].
    erewrite (proj2 (scan2_spec _ mi _)) by (split; [lia|reflexivity]). cbn [opt_bind].
    erewrite (proj2 (scan_char_spec _ _ _)) by reflexivity. cbn [opt_bind].
    erewrite (proj2 (scan2_spec _ sec _)) by (split; [lia|reflexivity]). cbn [opt_bind].
    rewrite (scan_fraction_complete fr otxt Hfr (offset_head _ _ Hoff)). cbn [opt_bind].
    apply scan_offset_spec in Hoff as (r & Ho & -> & Hov). rewrite Ho. cbn [opt_bind].
    match goal with |- (if ?b then _ else _) = _ => assert (Eb : b = true) by lia; rewrite Eb end.
    f_equal. lia.
Qed.

(** ** Formatting *)

Lemma civil_year_i32 t : in_i32 t -> 1901 <= d_year (civil_of_days (t / 86400)) <= 2038.
Proof.
  intros H. unfold in_i32 in H.
  destruct (civil_of_days_ok (t / 86400)) as (V & E).
  destruct (civil_of_days (t / 86400)) as [y m d]. cbn [d_year].
  pose proof (year_length y m d V) as L.
  rewrite days_of_civil_eq in E. cbn [d_year d_month d_day] in E.
  split.
  - destruct (Z.le_gt_cases 1901 y); [easy|]. exfalso.
    assert (year_start y + 365 <= year_start 1901) by (apply year_start_mono; lia).
    pose proof (year_start_succ y).
    assert (year_start (y+1) <= year_start 1901).
    { destruct (Z.eq_dec (y+1) 1901) as [->|]; [lia|]. pose proof (year_start_mono (y+1) 1901). lia. }
    assert (year_start 1901 = 693960) by reflexivity. lia.
  - destruct (Z.le_gt_cases y 2038); [easy|]. exfalso.
    assert (year_start 2039 <= year_start y).
    { destruct (Z.eq_dec 2039 y) as [->|]; [lia|]. pose proof (year_start_mono 2039 y). lia. }
    assert (year_start 2039 = 744364) by reflexivity. lia.
Qed.

Lemma epoch_to_iso_canonical t : in_i32 t -> CanonicalISO (epoch_to_iso t) t.
Proof.
  intros H. pose proof (civil_year_i32 t H). unfold epoch_to_iso, CanonicalISO.
  exists (t / 86400), (civil_of_days (t / 86400)), (t mod 86400 / 3600),
    (t mod 86400 / 60 mod 60), (t mod 86400 mod 60).
  split; [apply DayNumber_civil|]. split; [apply civil_of_days_ok|].
  repeat (split; [lia|]). split; [easy|lia].
Qed.

Lemma canonical_rfc s t : CanonicalISO s t -> RFC3339 s t.
Proof.
  intros (n & x & h & mi & sec & HD & V & Hy & Hh & Hmi & Hs & -> & ->).
  exists n, x, h, mi, sec, 84, [], 0, (lit "Z").
  split; [exact HD|]. split; [exact V|].
  split; [lia|]. split; [lia|]. split; [lia|]. split; [lia|]. split; [now left|].
  split; [constructor|]. split; [constructor|]. split; [reflexivity|lia].
Qed.

Lemma parse_canonical s t : CanonicalISO s t -> parse_rfc3339 s = Some t.
Proof. intros H. apply parse_rfc3339_spec. now apply canonical_rfc. Qed.

(** ** Order *)

Lemma str_cmp_refl a : str_cmp a a = Eq.
Proof. induction a as [|x a IH]; cbn; [easy|]. now rewrite Z.compare_refl. Qed.

Lemma two_cmp n n' a a' : 0 <= n <= 99 -> 0 <= n' <= 99 ->
  str_cmp (two n ++ a) (two n' ++ a') = match n ?= n' with Eq => str_cmp a a' | c => c end.
Proof.
  intros H H'. unfold two. cbn [app str_cmp].
  destruct (Z.compare_spec n n') as [->|L|L].
  - now rewrite !Z.compare_refl.
  - destruct (Z.compare_spec (48 + n / 10) (48 + n' / 10)) as [E|E|E]; [|easy|lia].
    destruct (Z.compare_spec (48 + n mod 10) (48 + n' mod 10)) as [E'|E'|E']; [lia|easy|lia].
  - destruct (Z.compare_spec (48 + n / 10) (48 + n' / 10)) as [E|E|E]; [|lia|easy].
    destruct (Z.compare_spec (48 + n mod 10) (48 + n' mod 10)) as [E'|E'|E']; [lia|lia|easy].
Qed.

Lemma four_cmp n n' a a' : 0 <= n <= 9999 -> 0 <= n' <= 9999 ->
  str_cmp (four n ++ a) (four n' ++ a') = match n ?= n' with Eq => str_cmp a a' | c => c end.
Proof.
  intros H H'. unfold four. rewrite <- !app_assoc. rewrite !two_cmp by lia.
  destruct (Z.compare_spec n n') as [->|L|L].
  - now rewrite !Z.compare_refl.
  - destruct (Z.compare_spec (n / 100) (n' / 100)) as [E|E|E]; [|easy|lia].
    destruct (Z.compare_spec (n mod 100) (n' mod 100)) as [E'|E'|E']; [lia|easy|lia].
  - destruct (Z.compare_spec (n / 100) (n' / 100)) as [E|E|E]; [|lia|easy].
    destruct (Z.compare_spec (n mod 100) (n' mod 100)) as [E'|E'|E']; [lia|lia|easy].
Qed.

Lemma char_cmp c a a' : str_cmp (c :: a) (c :: a') = str_cmp a a'.
Proof. cbn. now rewrite Z.compare_refl. Qed.

Lemma canonical_cmp s1 t1 s2 t2 :
  CanonicalISO s1 t1 -> CanonicalISO s2 t2 -> str_cmp s1 s2 = (t1 ?= t2).
Proof.
  intros (n & x & h & mi & sec & HD & V & Hy & Hh & Hmi & Hs & -> & ->).
  intros (n' & x' & h' & mi' & sec' & HD' & V' & Hy' & Hh' & Hmi' & Hs' & -> & ->).
  apply DayNumber_iff in HD as (_ & HD). apply DayNumber_iff in HD' as (_ & HD').
  destruct x as [y m d], x' as [y' m' d'].
  unfold iso_text. cbn [d_year d_month d_day] in *.
  pose proof V as V0. pose proof V' as V0'.
  unfold valid_date in V0, V0'. cbn [d_year d_month d_day] in *.
  pose proof (days_in_month_range y m). pose proof (days_in_month_range y' m').
  change (lit "-") with [45]. change (lit ":") with [58]. change (lit "T") with [84]. cbn [app].
  rewrite four_cmp by lia.
  assert (Hlt : forall a b k l, valid_date a -> valid_date b -> days_of_civil a = k ->
                 days_of_civil b = l -> date_lt a b -> k < l).
  { intros a b k l Va Vb <- <-. now apply days_of_civil_lt. }
  destruct (Z.compare_spec y y') as [->|L|L].
  2:{ symmetry. apply Z.compare_lt_iff.
      pose proof (Hlt _ _ _ _ V V' HD HD'). cbv [date_lt d_year d_month d_day] in *. lia. }
  2:{ symmetry. apply Z.compare_gt_iff.
      pose proof (Hlt _ _ _ _ V' V HD' HD). cbv [date_lt d_year d_month d_day] in *. lia. }
  rewrite char_cmp, two_cmp by lia.
  destruct (Z.compare_spec m m') as [->|L|L].
  2:{ symmetry. apply Z.compare_lt_iff.
      pose proof (Hlt _ _ _ _ V V' HD HD'). cbv [date_lt d_year d_month d_day] in *. lia. }
  2:{ symmetry. apply Z.compare_gt_iff.
      pose proof (Hlt _ _ _ _ V' V HD' HD). cbv [date_lt d_year d_month d_day] in *. lia. }
  rewrite char_cmp, two_cmp by lia.
  destruct (Z.compare_spec d d') as [->|L|L].
  2:{ symmetry. apply Z.compare_lt_iff.
      pose proof (Hlt _ _ _ _ V V' HD HD'). cbv [date_lt d_year d_month d_day] in *. lia. }
  2:{ symmetry. apply Z.compare_gt_iff.
      pose proof (Hlt _ _ _ _ V' V HD' HD). cbv [date_lt d_year d_month d_day] in *. lia. }
  assert (n = n') by congruence. subst n'.
  rewrite char_cmp, two_cmp by lia.
  destruct (Z.compare_spec h h') as [->|L|L];
    [|symmetry; apply Z.compare_lt_iff; lia|symmetry; apply Z.compare_gt_iff; lia].
  rewrite char_cmp, two_cmp by lia.
  destruct (Z.compare_spec mi mi') as [->|L|L];
    [|symmetry; apply Z.compare_lt_iff; lia|symmetry; apply Z.compare_gt_iff; lia].
  rewrite char_cmp, two_cmp by lia.
  rewrite str_cmp_refl.
  destruct (Z.compare_spec sec sec') as [->|L|L];
    [symmetry; apply Z.compare_eq_iff; lia|symmetry; apply Z.compare_lt_iff; lia|symmetry; apply Z.compare_gt_iff; lia].
Qed.

Lemma str_cmp_eq_iff a b : str_cmp a b = Eq <-> a = b.
Proof.
  split; [|intros ->; apply str_cmp_refl].
  revert b; induction a as [|x a IH]; intros [|y b]; cbn; try easy.
  destruct (Z.compare_spec x y) as [->|L|L]; try easy. intros H. f_equal. now apply IH.
Qed.
