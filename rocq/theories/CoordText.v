(** f64_from_str against the grammar of SpecCoord.v, and the shortest decimal of
    a coordinate (proofs only). *)
From Coq Require Import String ZArith List Bool Lia Reals Lra.
From Flocq Require Import Core.Core IEEE754.BinarySingleNaN.
From Coq Require Import ZifyBool ZifyNat.
From Verif Require Import Base SpecNum Ints Coord CoordFacts SpecCoord.
Import ListNotations.
Open Scope Z_scope.

Lemma span_digits_inv s a b : span_digits s = (a, b) -> s = a ++ b /\ Forall is_digit a /\ no_digit b.
Proof.
  revert a b; induction s as [|c r IH]; intros a b; cbn [span_digits].
  - intros [= <- <-]. now repeat split.
  - destruct (digitb c) eqn:E.
    + destruct (span_digits r) as [a' b']. intros [= <- <-].
      destruct (IH a' b' eq_refl) as (-> & B & C). split; [easy|]. split; [|easy].
      constructor; [now apply digitb_iff|easy].
    + intros [= <- <-]. repeat split; [constructor|]. exact E.
Qed.

Lemma parse_exp_spec s x : parse_exp s = Some x <-> ExpText s x.
Proof.
  split.
  - unfold parse_exp. destruct s as [|c r]; [intros [= <-]; constructor|].
    destruct (lower c =? chr "e") eqn:Ec; [|easy].
    assert (Hc : c = chr "e" \/ c = chr "E").
    { unfold lower in Ec. change (chr "e") with 101 in *. change (chr "E") with 69.
      destruct ((65 <=? c) && (c <=? 90)) eqn:Q; lia. }
    set (sp := match r with [] => _ | _ => _ end).
    assert (Hsp : exists sg, r = sg ++ snd sp /\ SignText sg (fst sp)).
    { subst sp. destruct r as [|d r']; [exists []; split; [easy|constructor]|].
      destruct (d =? chr "-") eqn:Q1; [exists (lit "-"); apply Z.eqb_eq in Q1; subst; split; [easy|constructor]|].
      destruct (d =? chr "+") eqn:Q2; [exists (lit "+"); apply Z.eqb_eq in Q2; subst; split; [easy|constructor]|].
      exists []; split; [easy|constructor]. }
    destruct sp as [neg r']. cbn [fst snd] in Hsp. destruct Hsp as (sg & -> & Hs).
    destruct (span_digits r') as [ds b] eqn:Es. apply span_digits_inv in Es. destruct Es as (-> & Hd & _).
    destruct ds as [|d ds]; [easy|]. destruct b; [|easy]. rewrite app_nil_r. intros [= <-].
    now apply Exp_some.
  - intros H. destruct H as [|c sg neg ds Hc Hs Hne Hd]; [reflexivity|].
    cbn [parse_exp]. assert (lower c =? chr "e" = true) as -> by (destruct Hc as [-> | ->]; reflexivity).
    assert (Hd0 : match ds with d :: _ => is_digit d | [] => True end) by (destruct Hd; easy).
    assert (Hsp : match sg ++ ds with
        | [] => (false, sg ++ ds)
        | d :: r' => if d =? chr "-" then (true, r') else if d =? chr "+" then (false, r') else (false, sg ++ ds)
        end = (neg, ds)).
    { destruct Hs; cbn; try easy. destruct ds as [|d ds]; [easy|]. unfold is_digit in Hd0.
      destruct (d =? 45) eqn:Q1; [lia|]. destruct (d =? 43) eqn:Q2; [lia|]. easy. }
    rewrite Hsp, span_digits_all by easy. destruct ds; easy.
Qed.

Lemma exp_no_digit s x : ExpText s x -> no_digit s.
Proof. destruct 1 as [|c sg neg ds [-> | ->]]; easy. Qed.
Lemma exp_no_dot s x : ExpText s x -> match s with c :: _ => (c =? chr ".") = false | [] => True end.
Proof. destruct 1 as [|c sg neg ds [-> | ->]]; easy. Qed.

(** The unsigned grammar. *)
Definition Unsigned (s : str) (m e : Z) : Prop :=
  exists ip dot fp ex x,
    s = ip ++ dot ++ fp ++ ex /\
    Forall is_digit ip /\ Forall is_digit fp /\ ip ++ fp <> [] /\
    (dot = lit "." \/ (dot = [] /\ fp = [])) /\ ExpText ex x /\
    m = dec_value (ip ++ fp) /\ e = x - Z.of_nat (length fp).

Lemma parse_unsigned_sound neg s v : parse_unsigned neg s = Some v ->
  exists m e, Unsigned s m e /\ v = f64_of_dec neg m e.
Proof.
  unfold parse_unsigned. destruct (span_digits s) as [ip r] eqn:E1.
  apply span_digits_inv in E1. destruct E1 as (-> & Hip & Hr).
  set (p := match r with [] => _ | _ => _ end).
  assert (Hp : exists dot, r = dot ++ fst p ++ snd p /\ Forall is_digit (fst p) /\ (dot = lit "." \/ (dot = [] /\ fst p = []))).
  { subst p. destruct r as [|c r1]; [exists []; repeat split; [constructor|now right]|].
    destruct (c =? chr ".") eqn:Q.
    - apply Z.eqb_eq in Q. subst c. destruct (span_digits r1) as [fp r'] eqn:E2. apply span_digits_inv in E2.
      destruct E2 as (-> & Hfp & _). exists (lit "."). repeat split; [easy|now left].
    - exists []. repeat split; [constructor|now right]. }
  destruct p as [fp r']. cbn [fst snd] in Hp. destruct Hp as (dot & -> & Hfp & Hdot).
  destruct (ip ++ fp) as [|d ds] eqn:Eds; [easy|]. rewrite <- Eds.
  destruct (parse_exp r') as [x|] eqn:Ex; [|easy]. apply parse_exp_spec in Ex. intros [= <-].
  exists (dec_value (ip ++ fp)), (x - Z.of_nat (length fp)). split; [|easy].
  exists ip, dot, fp, r', x. repeat split; try easy. now rewrite Eds.
Qed.

Lemma parse_unsigned_complete neg s m e : Unsigned s m e -> parse_unsigned neg s = Some (f64_of_dec neg m e).
Proof.
  intros (ip & dot & fp & ex & x & -> & Hip & Hfp & Hne & Hdot & Hex & -> & ->).
  unfold parse_unsigned.
  rewrite (span_digits_app ip (dot ++ fp ++ ex)); [|easy|].
  2:{ destruct Hdot as [-> |[-> ->]]; [reflexivity|]. cbn. now apply exp_no_digit with x. }
  assert (match dot ++ fp ++ ex with
          | [] => ([], dot ++ fp ++ ex)
          | c :: r1 => if c =? chr "." then span_digits r1 else ([], dot ++ fp ++ ex)
          end = (fp, ex)) as ->.
  { destruct Hdot as [-> |[-> ->]].
    - cbn [app lit]. change (lit "." ++ ?r) with (46 :: r). change (46 =? chr ".") with true. cbv iota.
      apply span_digits_app; [easy|]. now apply exp_no_digit with x.
    - cbn [app]. pose proof (exp_no_dot _ _ Hex). destruct ex as [|c ex']; [easy|]. now rewrite H. }
  rewrite (match_nonnil (ip ++ fp) None (fun l => match parse_exp ex with
     | Some x => Some (f64_of_dec neg (dec_value l) (x - Z.of_nat (length fp))) | None => None end)) by easy.
  apply parse_exp_spec in Hex. now rewrite Hex.
Qed.

Lemma unsigned_first s m e : Unsigned s m e -> match s with c :: _ => c <> chr "-" /\ c <> chr "+" /\
   lower c <> chr "n" /\ lower c <> chr "i" | [] => False end.
Proof.
  intros (ip & dot & fp & ex & x & -> & Hip & Hfp & Hne & Hdot & Hex & -> & ->).
  assert (D : forall c, is_digit c -> c <> chr "-" /\ c <> chr "+" /\ lower c <> chr "n" /\ lower c <> chr "i").
  { intros c Hc. unfold is_digit in Hc. unfold lower. change (chr "-") with 45. change (chr "+") with 43.
    change (chr "n") with 110. change (chr "i") with 105. destruct ((65 <=? c) && (c <=? 90)); lia. }
  destruct ip as [|c ip].
  - destruct Hdot as [-> |[-> ->]]; [|easy]. cbn. repeat split; lia.
  - cbn. apply D. now inversion Hip.
Qed.

Lemma sign_split c r : exists sg, c :: r = sg ++ snd (if c =? chr "-" then (true, r)
     else if c =? chr "+" then (false, r) else (false, c :: r)) /\
   SignText sg (fst (if c =? chr "-" then (true, r) else if c =? chr "+" then (false, r) else (false, c :: r))).
Proof.
  destruct (c =? chr "-") eqn:Q1; [exists (lit "-"); apply Z.eqb_eq in Q1; subst; split; [easy|constructor]|].
  destruct (c =? chr "+") eqn:Q2; [exists (lit "+"); apply Z.eqb_eq in Q2; subst; split; [easy|constructor]|].
  exists []; split; [easy|constructor].
Qed.

Lemma sign_unsplit sg neg t : SignText sg neg ->
  match t with c :: _ => c <> chr "-" /\ c <> chr "+" | [] => False end ->
  exists c r, sg ++ t = c :: r /\
   (if c =? chr "-" then (true, r) else if c =? chr "+" then (false, r) else (false, c :: r)) = (neg, t).
Proof.
  intros Hs Ht. destruct Hs; cbn; [|eexists _, _; split; reflexivity|eexists _, _; split; reflexivity].
  destruct t as [|c t]; [easy|]. exists c, t. split; [easy|].
  destruct (c =? 45) eqn:Q1; [apply Z.eqb_eq in Q1; tauto|].
  destruct (c =? 43) eqn:Q2; [apply Z.eqb_eq in Q2; tauto|]. easy.
Qed.

Lemma number_text_unsigned s neg m e : NumberText s neg m e <->
  exists sg t, s = sg ++ t /\ SignText sg neg /\ Unsigned t m e.
Proof.
  split.
  - intros (sg & ip & dot & fp & ex & x & -> & Hs & H). exists sg, (ip ++ dot ++ fp ++ ex).
    repeat split; [easy|]. now exists ip, dot, fp, ex, x.
  - intros (sg & t & -> & Hs & ip & dot & fp & ex & x & -> & H). now exists sg, ip, dot, fp, ex, x.
Qed.

Lemma f64_from_str_spec s v : f64_from_str s = Some v <->
  (exists neg m e, NumberText s neg m e /\ v = f64_of_dec neg m e) \/
  (exists neg, NameText s neg (lit "nan") /\ v = B754_nan) \/
  (exists neg, (NameText s neg (lit "inf") \/ NameText s neg (lit "infinity")) /\ v = B754_infinity neg).
Proof.
  split.
  - unfold f64_from_str. destruct s as [|c r]; [easy|].
    destruct (sign_split c r) as (sg & Hs & Hsg).
    destruct (if c =? chr "-" then _ else _) as [neg body]. cbn [fst snd] in *. rewrite Hs. clear Hs.
    destruct (parse_unsigned neg body) as [x|] eqn:E.
    + intros [= <-]. apply parse_unsigned_sound in E. destruct E as (m & e & H & ->). left.
      exists neg, m, e. split; [|easy]. apply number_text_unsigned. now exists sg, body.
    + destruct (str_eqb (map lower body) (lit "nan")) eqn:E1.
      { intros [= <-]. right; left. exists neg. split; [|easy]. exists sg, body. repeat split; [easy|].
        now apply str_eqb_eq. }
      destruct (str_eqb _ _ || str_eqb _ _) eqn:E2; [|easy]. intros [= <-]. right; right. exists neg.
      split; [|easy]. apply orb_true_iff in E2.
      destruct E2 as [E2|E2]; apply str_eqb_eq in E2; [left|right]; exists sg, body; repeat split; easy.
  - assert (Names : forall sg neg t name, SignText sg neg -> map lower t = name ->
        (name = lit "nan" \/ name = lit "inf" \/ name = lit "infinity") ->
        f64_from_str (sg ++ t) = if str_eqb name (lit "nan") then Some B754_nan else Some (B754_infinity neg)).
    { intros sg neg t name Hs Hl Hn.
      assert (H1 : match t with c :: _ => c <> chr "-" /\ c <> chr "+" | [] => False end).
      { destruct t as [|c t]; [cbn in Hl; subst name; destruct Hn as [|[|]]; discriminate|].
        split; intros ->; cbn in Hl; subst name; destruct Hn as [H|[H|H]]; cbn in H; discriminate. }
      destruct (sign_unsplit sg neg t Hs H1) as (c & r & E & E2).
      unfold f64_from_str. rewrite E, E2.
      destruct (parse_unsigned neg t) as [x|] eqn:Ep.
      { apply parse_unsigned_sound in Ep. destruct Ep as (m & e & Hu & _). apply unsigned_first in Hu.
        destruct t as [|d t]; [easy|]. cbn in Hl. exfalso.
        destruct Hn as [-> |[-> | ->]]; injection Hl; intros; subst; tauto. }
      rewrite Hl. destruct Hn as [-> |[-> | ->]]; reflexivity. }
    intros [(neg & m & e & H & ->)|[(neg & H & ->)|(neg & H & ->)]].
    + apply number_text_unsigned in H. destruct H as (sg & t & -> & Hs & Hu).
      pose proof (unsigned_first _ _ _ Hu) as H1.
      destruct (sign_unsplit sg neg t Hs) as (c & r & E & E2); [destruct t; [easy|]; tauto|].
      unfold f64_from_str. rewrite E, E2. now rewrite (parse_unsigned_complete neg t m e Hu).
    + destruct H as (sg & t & -> & Hs & Hl). rewrite (Names sg neg t _ Hs Hl) by tauto. reflexivity.
    + destruct H as [(sg & t & -> & Hs & Hl)|(sg & t & -> & Hs & Hl)];
        rewrite (Names sg neg t _ Hs Hl) by tauto; reflexivity.
Qed.

(** ** The shortest decimal of a coordinate *)

Lemma coord_shortest i c e : in_i32 i -> i <> 0 -> strip10 10 (Z.abs i) (-7) = (c, e) ->
  ShortestDecimal (degrees i) c e.
Proof.
  intros Hi Hn Es. pose proof (strip10_real i c e Hn Es) as Hr.
  pose proof (strip10_spec 10 (Z.abs i) (-7) c e ltac:(lia) Es) as (A & B & C & D).
  unfold in_i32 in Hi. assert (Hm : c mod 10 <> 0) by (apply D; change (10 ^ Z.of_nat 10) with 10000000000; lia).
  destruct (degrees_correct i ltac:(lia)) as (DA & DB & DC).
  pose proof (degrees_normal i Hi Hn) as Hnorm.
  assert (Hz : B2R (degrees i) <> 0%R).
  { intros Q. rewrite Q, Rabs_R0 in Hnorm. pose proof (bpow_gt_0 radix2 (-1022)). lra. }
  assert (E0 : f64_of_dec false c e = Babs (degrees i)).
  { apply Babs_of_dec; try easy. rewrite DC. now apply degrees_is_dec. }
  split; [easy|]. split; [easy|]. split; [exact E0|].
  intros c' e' Hc' E'. pose proof (Z.pow_pos_nonneg 10 (e - -7) ltac:(lia) ltac:(lia)).
  assert (Hc10 : c < 10 ^ 10) by nia.
  destruct (Z.lt_ge_cases c' (10 ^ 10)) as [Q|Q].
  - assert (Hd : dec_real c e = dec_real c' e').
    { apply (ten_digits_unique (Babs (degrees i))); try easy.
      - now rewrite B2R_Babs, Rabs_Rabsolu.
      - now rewrite is_finite_Babs. }
    destruct (dec_real_inj c e c' e' A Hc' Hm Hd) as (Q1 & Q2).
    destruct (Z.eq_dec e e') as [<-|Qe].
    + right. split; [|easy]. rewrite Q2. replace (e - e) with 0 by lia. change (10 ^ 0) with 1. lia.
    + left. assert (c * 10 <= c').
      { rewrite Q2. replace (e - e') with (Z.succ (e - e' - 1)) by lia. rewrite Z.pow_succ_r by lia.
        pose proof (Z.pow_pos_nonneg 10 (e - e' - 1) ltac:(lia) ltac:(lia)). nia. }
      destruct (show_uint_len c A) as ((L1 & L2) & L3). destruct (show_uint_len c' Hc') as ((M1 & M2) & M3).
      assert (10 ^ Z.of_nat (length (show_uint c)) < 10 ^ Z.of_nat (length (show_uint c'))) as K.
      { replace (Z.of_nat (length (show_uint c))) with (Z.succ (Z.of_nat (length (show_uint c)) - 1)) by lia.
        rewrite Z.pow_succ_r by lia. lia. }
      apply Z.pow_lt_mono_r_iff in K; lia.
  - left. destruct (show_uint_len c A) as ((L1 & L2) & L3). destruct (show_uint_len c' Hc') as ((M1 & M2) & M3).
    assert (10 ^ (Z.of_nat (length (show_uint c)) - 1) < 10 ^ 10) as K1 by lia.
    apply Z.pow_lt_mono_r_iff in K1; [|lia|lia].
    assert (10 ^ 10 < 10 ^ Z.of_nat (length (show_uint c'))) as K2 by lia.
    apply Z.pow_lt_mono_r_iff in K2; lia.
Qed.

Lemma show_coord_display i : in_i32 i -> DisplayText (degrees i) (show_coord i).
Proof.
  intros Hi. unfold show_coord. destruct (i =? 0) eqn:E0.
  - assert (i = 0) by lia; subst. reflexivity.
  - destruct (strip10 10 (Z.abs i) (-7)) as [c e] eqn:Es.
    pose proof (coord_shortest i c e Hi ltac:(lia) Es) as Hs.
    pose proof (degrees_normal i Hi ltac:(lia)) as Hnorm.
    unfold in_i32 in Hi. destruct (degrees_correct i ltac:(lia)) as (_ & DB & DC).
    destruct (degrees i) as [s|s| |s m x H]; try easy.
    + cbn in Hnorm. rewrite Rabs_R0 in Hnorm. pose proof (bpow_gt_0 radix2 (-1022)). cbn in H, Hnorm. lra.
    + cbn in DC. subst s. exists c, e. easy.
Qed.

Lemma display_unique d t t' : DisplayText d t -> DisplayText d t' -> t = t'.
Proof.
  destruct d as [s|s| |s m x H]; cbn; try easy; [congruence|].
  intros (c & e & (A1 & A2 & A3 & A4) & ->) (c' & e' & (B1 & B2 & B3 & B4) & ->).
  destruct (A4 c' e' B1 B3) as [L|[-> ->]]; [|easy].
  destruct (B4 c e A1 A3) as [L'|[-> ->]]; [lia|easy].
Qed.
