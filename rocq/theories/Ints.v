(** Printing and parsing of machine integers: Rust's [Display] for integers and
    [str::parse], used by every writer and reader of the crate. *)
From Coq Require Import ZArith List Bool Lia.
From Coq Require Import ZifyBool ZifyNat.
From Verif Require Import Base SpecNum.
Import ListNotations.
Open Scope Z_scope.
Local Ltac Zify.zify_post_hook ::= Z.div_mod_to_equations.

(** Decimal digits of a non-negative number, pushed in front of [acc].
    Models core::fmt's integer formatting, which the writers reach through
    "{}" in src/xml/mod.rs:441-517 and src/osc/mod.rs:154-231.  The fuel is an
    upper bound on the number of digits. *)
Fixpoint show_digits (fuel : nat) (n : Z) (acc : str) : str :=
  match fuel with
  | O => acc
  | S f =>
      let acc' := (48 + n mod 10) :: acc in
      if n <? 10 then acc' else show_digits f (n / 10) acc'
  end.

(** [Display] of an unsigned integer. *)
Definition show_uint (n : Z) : str := show_digits (Z.to_nat (Z.log2 n + 1)) n [].

(** [Display] of a signed integer. *)
Definition show_int (n : Z) : str :=
  if n <? 0 then 45 :: show_uint (- n) else show_uint n.

Definition digitb (c : char) : bool := (48 <=? c) && (c <=? 57).

(** The digit loop of core::num's integer parser (from_str_radix), which
    checks for overflow after each multiplication and each addition.  Reached
    through [parse] in src/xml/mod.rs:195-357, src/changesets.rs:107-283 and
    the OPL decoder. *)
Fixpoint parse_loop (lo hi : Z) (neg : bool) (acc : Z) (s : str) : option Z :=
  match s with
  | [] => Some acc
  | c :: r =>
      if digitb c then
        let m := acc * 10 in
        if (lo <=? m) && (m <=? hi) then
          let a := if neg then m - (c - 48) else m + (c - 48) in
          if (lo <=? a) && (a <=? hi) then parse_loop lo hi neg a r else None
        else None
      else None
  end.

(** [str::parse::<T>()] for an integer type with range [lo..hi]: an empty text
    or a lone sign is an error; '+' is always allowed, '-' only for signed
    types. *)
Definition parse_int (signed : bool) (lo hi : Z) (s : str) : option Z :=
  match s with
  | [] => None
  | c :: r =>
      if (c =? 43) || (c =? 45) then
        match r with
        | [] => None
        | _ =>
            if c =? 43 then parse_loop lo hi false 0 r
            else if signed then parse_loop lo hi true 0 r
            else parse_loop lo hi false 0 s
        end
      else parse_loop lo hi false 0 s
  end.

Definition parse_i64 : str -> option Z := parse_int true (- 2^63) (2^63 - 1).
Definition parse_i32 : str -> option Z := parse_int true (- 2^31) (2^31 - 1).
Definition parse_u32 : str -> option Z := parse_int false 0 (2^32 - 1).
Definition parse_u64 : str -> option Z := parse_int false 0 (2^64 - 1).

(** ** Facts *)

Lemma digitb_iff c : digitb c = true <-> is_digit c.
Proof. unfold digitb, is_digit. lia. Qed.

Lemma pow10_pos (n : nat) : 0 < 10 ^ Z.of_nat n.
Proof. apply Z.pow_pos_nonneg; lia. Qed.

Lemma pow10_S (n : nat) : 10 ^ Z.of_nat (S n) = 10 * 10 ^ Z.of_nat n.
Proof. rewrite Nat2Z.inj_succ, Z.pow_succ_r; lia. Qed.

Lemma dec_value_nonneg ds : Forall is_digit ds -> 0 <= dec_value ds.
Proof.
  induction 1 as [|c r Hc Hr IH]; cbn [dec_value]; [lia|].
  unfold is_digit in Hc. pose proof (pow10_pos (length r)). nia.
Qed.

Lemma dec_value_bound ds : Forall is_digit ds -> dec_value ds < 10 ^ Z.of_nat (length ds).
Proof.
  induction 1 as [|c r Hc Hr IH]; cbn [dec_value length]; [cbn; lia|].
  unfold is_digit in Hc. rewrite pow10_S. pose proof (pow10_pos (length r)). nia.
Qed.

Lemma dec_value_app a b :
  dec_value (a ++ b) = dec_value a * 10 ^ Z.of_nat (length b) + dec_value b.
Proof.
  induction a as [|c r IH]; cbn [dec_value app]; [lia|].
  rewrite IH, app_length, Nat2Z.inj_add, Z.pow_add_r by lia. lia.
Qed.

(** Printing. *)

Lemma show_digits_app fuel n acc : show_digits fuel n acc = show_digits fuel n [] ++ acc.
Proof.
  revert n acc; induction fuel as [|f IH]; intros n acc; cbn [show_digits]; [easy|].
  destruct (n <? 10) eqn:E; [easy|].
  rewrite IH. rewrite (IH (n/10) [_]). now rewrite <- app_assoc.
Qed.

Lemma show_digits_spec fuel n :
  0 <= n -> n < 2 ^ Z.of_nat fuel -> (0 < fuel)%nat ->
  Forall is_digit (show_digits fuel n []) /\ show_digits fuel n [] <> []
  /\ dec_value (show_digits fuel n []) = n.
Proof.
  revert n; induction fuel as [|f IH]; intros n H0 Hb Hf; [lia|].
  cbn [show_digits].
  destruct (n <? 10) eqn:E.
  - split; [|split; [easy|]].
    + constructor; [unfold is_digit; lia|constructor].
    + cbn [dec_value length Z.of_nat]. change (10 ^ 0) with 1. lia.
  - assert (Hf' : (0 < f)%nat). { destruct f; [|lia]. cbn in Hb. lia. }
    rewrite Nat2Z.inj_succ, Z.pow_succ_r in Hb by lia.
    destruct (IH (n/10)) as (A & B & C); [lia|lia|easy|].
    rewrite show_digits_app.
    repeat split.
    + apply Forall_app; split; [easy|]. constructor; [|constructor]. unfold is_digit. lia.
    + intros Hn. apply app_eq_nil in Hn. easy.
    + rewrite dec_value_app, C. cbn [dec_value length]. 
      change (10 ^ Z.of_nat 1) with 10. change (10 ^ Z.of_nat 0) with 1. lia.
Qed.

Lemma show_uint_spec n :
  0 <= n -> Forall is_digit (show_uint n) /\ show_uint n <> [] /\ dec_value (show_uint n) = n.
Proof.
  intros H. unfold show_uint. pose proof (Z.log2_nonneg n).
  apply show_digits_spec; [easy| |lia].
  rewrite Z2Nat.id by lia.
  destruct (Z.eq_dec n 0) as [->|]; [cbn; lia|].
  apply Z.log2_spec. lia.
Qed.

Lemma show_int_denotes n : denotes_int true (show_int n) n.
Proof.
  unfold show_int. destruct (n <? 0) eqn:E.
  - destruct (show_uint_spec (-n)) as (A & B & C); [lia|].
    exists (show_uint (-n)). repeat split; try easy. right; right. repeat split. lia.
  - destruct (show_uint_spec n) as (A & B & C); [lia|].
    exists (show_uint n). repeat split; try easy. left. repeat split. lia.
Qed.

Lemma show_uint_denotes n : 0 <= n -> denotes_int false (show_uint n) n.
Proof.
  intros H. destruct (show_uint_spec n H) as (A & B & C).
  exists (show_uint n). repeat split; try easy. left. now split.
Qed.

(** Parsing. *)

Lemma parse_loop_spec lo hi (neg : bool) acc s v :
  lo <= 0 <= hi ->
  (if neg then acc <= 0 else 0 <= acc) -> lo <= acc <= hi ->
  parse_loop lo hi neg acc s = Some v <->
  Forall is_digit s /\ lo <= v <= hi /\
  v = acc * 10 ^ Z.of_nat (length s) + (if neg then - dec_value s else dec_value s).
Proof.
  intros H0. revert acc; induction s as [|c r IH]; intros acc Hs Hr; cbn [parse_loop].
  - cbn. split.
    + intros [= <-]. split; [constructor|]. destruct neg; lia.
    + intros (_ & _ & E). f_equal. destruct neg; lia.
  - destruct (digitb c) eqn:Ed.
    2:{ split; [easy|]. intros (HF & _). inversion HF; subst.
        apply digitb_iff in H2. congruence. }
    apply digitb_iff in Ed. unfold is_digit in Ed.
    cbn [length dec_value]. rewrite pow10_S.
    pose proof (pow10_pos (length r)) as Hp.
    destruct ((lo <=? acc * 10) && (acc * 10 <=? hi)) eqn:E1.
    2:{ split; [easy|]. intros (HF & Hv & E). inversion HF; subst x l.
        pose proof (dec_value_nonneg r H3). destruct neg; nia. }
    set (a := if neg then acc * 10 - (c - 48) else acc * 10 + (c - 48)).
    destruct ((lo <=? a) && (a <=? hi)) eqn:E2.
    2:{ split; [easy|]. intros (HF & Hv & E). inversion HF; subst x l.
        pose proof (dec_value_nonneg r H3). subst a. destruct neg; nia. }
    rewrite IH; [| subst a; destruct neg; lia | lia ].
    split; intros (HF & Hv & E).
    + split; [constructor; [easy|easy]|]. split; [easy|]. subst a. destruct neg; nia.
    + inversion HF; subst x l. split; [easy|]. split; [easy|]. subst a. destruct neg; nia.
Qed.

Lemma parse_int_spec signed lo hi s v :
  lo <= 0 <= hi ->
  parse_int signed lo hi s = Some v <-> denotes_int signed s v /\ lo <= v <= hi.
Proof.
  intros H0. unfold parse_int, denotes_int.
  destruct s as [|c r].
  - split; [easy|]. intros ((ds & Hne & HF & [(E & _)|[(E & _)|(_ & E & _)]]) & _); try easy.
    now subst.
  - destruct ((c =? 43) || (c =? 45)) eqn:Es.
    + destruct r as [|d r].
      { split; [easy|].
        intros ((ds & Hne & HF & [(E & _)|[(E & _)|(_ & E & _)]]) & _).
        - subst ds. inversion HF; subst. unfold is_digit in *. lia.
        - injection E as _ <-. easy.
        - injection E as _ <-. easy. }
      destruct (c =? 43) eqn:Ep.
      * assert (c = 43) by lia; subst c.
        rewrite parse_loop_spec by lia. split.
        -- intros (HF & Hv & E). split; [|easy]. exists (d :: r).
           repeat split; try easy. right; left. split; [easy|]. lia.
        -- intros ((ds & Hne & HF & [(E & Ev)|[(E & Ev)|(_ & E & Ev)]]) & Hv).
           ++ subst ds. inversion HF; subst. unfold is_digit in *. lia.
           ++ injection E as <-. split; [easy|]. split; [easy|]. lia.
           ++ discriminate.
      * assert (c = 45) by lia; subst c. destruct signed.
        -- rewrite parse_loop_spec by lia. split.
           ++ intros (HF & Hv & E). split; [|easy]. exists (d :: r).
              repeat split; try easy. right; right. repeat split. lia.
           ++ intros ((ds & Hne & HF & [(E & Ev)|[(E & Ev)|(_ & E & Ev)]]) & Hv).
              ** subst ds. inversion HF; subst. unfold is_digit in *. lia.
              ** discriminate.
              ** injection E as <-. split; [easy|]. split; [easy|]. lia.
        -- cbn [parse_loop digitb]. cbn. split; [easy|].
           intros ((ds & Hne & HF & [(E & Ev)|[(E & Ev)|(E & _)]]) & Hv); try easy.
           subst ds. inversion HF; subst. unfold is_digit in *. lia.
    + rewrite parse_loop_spec by lia. split.
      * intros (HF & Hv & E). split; [|easy]. exists (c :: r).
        repeat split; try easy. left. split; [easy|]. lia.
      * intros ((ds & Hne & HF & [(E & Ev)|[(E & Ev)|(_ & E & Ev)]]) & Hv).
        -- subst ds. split; [easy|]. split; [easy|]. lia.
        -- injection E as -> ->. cbn in Es. lia.
        -- injection E as -> ->. cbn in Es. lia.
Qed.

Lemma parse_show_i64 n : in_i64 n -> parse_i64 (show_int n) = Some n.
Proof.
  intros H. unfold in_i64 in H. apply parse_int_spec; [lia|].
  split; [apply show_int_denotes|lia].
Qed.
Lemma parse_show_i32 n : in_i32 n -> parse_i32 (show_int n) = Some n.
Proof.
  intros H. unfold in_i32 in H. apply parse_int_spec; [lia|].
  split; [apply show_int_denotes|lia].
Qed.
Lemma parse_show_u32 n : in_u32 n -> parse_u32 (show_uint n) = Some n.
Proof.
  intros H. unfold in_u32 in H. apply parse_int_spec; [lia|].
  split; [apply show_uint_denotes; lia|lia].
Qed.
Lemma parse_show_u64 n : in_u64 n -> parse_u64 (show_uint n) = Some n.
Proof.
  intros H. unfold in_u64 in H. apply parse_int_spec; [lia|].
  split; [apply show_uint_denotes; lia|lia].
Qed.

(** The characters a printed integer is made of. *)
Lemma show_int_chars n : Forall (fun c => is_digit c \/ c = 45) (show_int n).
Proof.
  unfold show_int. destruct (n <? 0) eqn:E.
  - constructor; [now right|].
    destruct (show_uint_spec (-n)) as (A & _); [lia|].
    eapply Forall_impl; [|exact A]. now left.
  - destruct (show_uint_spec n) as (A & _); [lia|].
    eapply Forall_impl; [|exact A]. now left.
Qed.
Lemma show_uint_chars n : 0 <= n -> Forall is_digit (show_uint n).
Proof. intros H. now destruct (show_uint_spec n H). Qed.
