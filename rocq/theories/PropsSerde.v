(** C103: the public value types as JSON. *)
From Coq Require Import String ZArith List Bool Lia.
From Coq Require Import ZifyBool ZifyNat.
From Verif Require Import Base SpecNum Ints Timestamp Obj Json SpecJson JsonFacts Serde.
Import ListNotations.
Open Scope Z_scope.

(** ** Numbers *)

Local Ltac spl := repeat match goal with |- _ /\ _ => split end; try reflexivity.

Lemma digit_jdigit c : digitb c = jdigit c.
Proof. reflexivity. Qed.

Lemma span_digits_spec s : forall d t, span_digits s = (d, t) ->
  s = d ++ t /\ Forall is_digit d /\ (forall c r, t = c :: r -> jdigit c = false).
Proof.
  induction s as [|c s IH]; cbn [span_digits]; intros d t H.
  - injection H as <- <-. spl; [constructor|discriminate].
  - destruct (jdigit c) eqn:E.
    + destruct (span_digits s) as [d' t'] eqn:E2. injection H as <- <-.
      destruct (IH _ _ eq_refl) as (A & B & C). spl.
      * cbn. now rewrite <- A.
      * constructor; [now apply digitb_iff|assumption].
      * exact C.
    + injection H as <- <-. spl; [constructor|]. intros c0 r0 [= <- <-]. exact E.
Qed.

Lemma de_digits_spec s : forall n d t, span_digits s = (d, t) ->
  de_digits n s = (n * 10 ^ Z.of_nat (length d) + dec_value d, t).
Proof.
  induction s as [|c s IH]; cbn [span_digits de_digits]; intros n d t H.
  - injection H as <- <-. cbn. f_equal. lia.
  - rewrite digit_jdigit. destruct (jdigit c) eqn:E.
    + destruct (span_digits s) as [d' t'] eqn:E2. injection H as <- <-.
      rewrite (IH _ _ _ eq_refl). f_equal. cbn [dec_value length]. rewrite pow10_S. lia.
    + injection H as <- <-. cbn. f_equal. lia.
Qed.

(** What may follow an integer that is not the beginning of a float. *)
Definition ends_int (t : str) : Prop :=
  forall c r, t = c :: r -> c <> 46 /\ c <> 101 /\ c <> 69.

Lemma de_integral_spec p q : de_integral p = Some q <-> q = p /\ ends_int (snd p).
Proof.
  unfold de_integral, ends_int. destruct p as [n [|c r]]; cbn [snd].
  - split; [intros [= <-]; split; [easy|discriminate]|]. now intros [-> _].
  - destruct ((c =? 46) || (c =? 101) || (c =? 69)) eqn:E.
    + split; [discriminate|]. intros [_ H]. specialize (H c r eq_refl). lia.
    + split; [intros [= <-]; split; [easy|]; intros c0 r0 [= <- <-]; lia|]. now intros [-> _].
Qed.

Definition no_leading_zero (d : str) : Prop :=
  exists c r, d = c :: r /\ (c = 48 -> r = []).

Lemma de_magnitude_spec s n t :
  de_magnitude s = Some (n, t) <->
  exists d, span_digits s = (d, t) /\ no_leading_zero d /\ n = dec_value d /\ ends_int t.
Proof.
  unfold de_magnitude. destruct s as [|c r].
  { split; [discriminate|]. intros (d & A & (c & r & -> & _) & _). discriminate. }
  destruct (c =? 48) eqn:E0.
  - apply Z.eqb_eq in E0. subst c. cbn [span_digits]. change (jdigit 48) with true. cbv iota.
    destruct r as [|d r].
    + cbn [span_digits]. rewrite de_integral_spec. cbn [snd]. split.
      * intros [[= -> ->] H]. exists [48]. spl; [|exact H]. exists 48, []. easy.
      * intros (d & [= <- <-] & _ & -> & H). split; [reflexivity|exact H].
    + cbn [span_digits]. rewrite digit_jdigit. destruct (jdigit d) eqn:Ed.
      * split; [discriminate|]. destruct (span_digits r) as [d' t'].
        intros (x & [= <- <-] & (c & q & [= <- <-] & Hz) & _). now specialize (Hz eq_refl).
      * rewrite de_integral_spec. cbn [snd]. split.
        -- intros [[= -> ->] H]. exists [48]. spl; [|exact H]. exists 48, []. easy.
        -- intros (x & [= <- <-] & _ & -> & H). split; [reflexivity|exact H].
  - destruct ((49 <=? c) && (c <=? 57)) eqn:E1.
    + cbn [span_digits]. replace (jdigit c) with true by (unfold jdigit; lia).
      destruct (span_digits r) as [d' t'] eqn:E2. rewrite (de_digits_spec _ _ _ _ E2), de_integral_spec.
      cbn [snd]. split.
      * intros [[= -> ->] H]. exists (c :: d'). spl; [|exact H].
        exists c, d'. split; [easy|]. lia.
      * intros (x & [= <- <-] & _ & -> & H). split; [reflexivity|exact H].
    + split; [discriminate|]. cbn [span_digits]. 
      replace (jdigit c) with false by (unfold jdigit; lia).
      intros (d & [= <- <-] & (c0 & q & E & _) & _). discriminate.
Qed.

(** Texts of numbers that denote integers have neither fraction nor exponent. *)
Lemma denotes_chars t v : denotes_int true t v -> Forall (fun c => is_digit c \/ c = 43 \/ c = 45) t.
Proof.
  intros (ds & _ & HF & H).
  assert (HF' : Forall (fun c => is_digit c \/ c = 43 \/ c = 45) ds)
    by (eapply Forall_impl; [|exact HF]; intros; tauto).
  destruct H as [(-> & _)|[(-> & _)|(_ & -> & _)]]; [assumption|constructor; tauto|constructor; tauto].
Qed.

Lemma jnumber_int s t rest v :
  jnumber s = Some (t, rest) /\ denotes_int true t v <->
  exists d, no_leading_zero d /\ ends_int rest /\
    ((span_digits s = (d, rest) /\ t = d /\ v = dec_value d) \/
     (exists r, s = 45 :: r /\ span_digits r = (d, rest) /\ t = 45 :: d /\ v = - dec_value d)).
Proof.
  unfold jnumber.
  destruct (opt_char (fun c => c =? 45) s) as [sg s1] eqn:Eo.
  assert (Hsg : (sg = [45] /\ s = 45 :: s1) \/ (sg = [] /\ s1 = s /\ forall r, s <> 45 :: r)).
  { unfold opt_char in Eo. destruct s as [|c r]; [injection Eo as <- <-; right; spl; discriminate|].
    destruct (c =? 45) eqn:E; injection Eo as <- <-.
    - left. split; f_equal; lia.
    - right. spl. intros r' [= ->]. discriminate. }
  destruct (span_digits s1) as [ip s2] eqn:Es.
  pose proof (span_digits_spec _ _ _ Es) as (Hs1 & Hip & _).
  assert (Hspan : forall d r0, s1 = s -> span_digits s = (d, r0) -> d = ip /\ r0 = s2).
  { intros d r0 -> Hd. rewrite Es in Hd. now injection Hd as <- <-. }
  split.
  - intros [H Hden]. destruct ip as [|c more]; [discriminate|].
    destruct ((c =? 48) && negb match more with [] => true | _ => false end) eqn:Ez; [discriminate|].
    assert (Hz : no_leading_zero (c :: more)).
    { exists c, more. split; [easy|]. intros ->. destruct more; [easy|]. discriminate. }
    destruct (opt_char (fun c => c =? 46) s2) as [dot s3] eqn:Ed.
    assert (Hdot : dot = [] /\ s3 = s2 /\ (forall r, s2 <> 46 :: r)
                   \/ dot = [46] /\ forall y, t = sg ++ (c :: more) ++ [46] ++ y -> False).
    { unfold opt_char in Ed. destruct s2 as [|x s2]; [injection Ed as <- <-; left; spl; discriminate|].
      destruct (x =? 46) eqn:E; injection Ed as <- <-.
      - right. split; [f_equal; lia|]. intros y ->. apply denotes_chars in Hden.
        apply Forall_app in Hden as [_ Hden]. apply Forall_app in Hden as [_ Hden].
        inversion Hden; subst. unfold is_digit in *. lia.
      - left. spl. intros r [= ->]. discriminate. }
    destruct Hdot as [(-> & -> & Hnodot)|(-> & Hno)].
    2:{ exfalso. destruct (span_digits s3) as [fr s4]. destruct fr as [|f1 fr]; [discriminate|].
        destruct (opt_char _ s4) as [e s5].
        destruct e as [|e0 e]; cbn in H.
        - injection H as H _. apply (Hno (f1 :: fr)). rewrite <- H. cbn. now rewrite app_nil_r.
        - destruct (opt_char _ s5) as [es s6]. destruct (span_digits s6) as [ex s7].
          destruct ex; [discriminate|]. injection H as H _.
          eapply Hno. rewrite <- H. cbn. reflexivity. }
    destruct (opt_char (fun c => (c =? 101) || (c =? 69)) s2) as [e s5] eqn:Ee.
    unfold opt_char in Ee.
    destruct s2 as [|x s2].
    + injection Ee as <- <-. cbn in H. injection H as <- <-.
      exists (c :: more). split; [exact Hz|]. split; [discriminate|].
      rewrite app_nil_r. rewrite app_nil_r in Hden.
      destruct Hsg as [(-> & ->)|(-> & -> & Hns)].
      * right. exists s1. spl; [exact Es|].
        destruct Hden as (ds & _ & HF & [(E & _)|[(E & _)|(_ & E & ->)]]).
        -- subst ds. inversion HF; subst. unfold is_digit in *. lia.
        -- discriminate.
        -- injection E as <-. reflexivity.
      * left. spl; [exact Es|].
        destruct Hden as (ds & _ & HF & [(E & ->)|[(E & _)|(_ & E & _)]]).
        -- cbn in E. now subst ds.
        -- injection E as -> ->. inversion Hip; subst. unfold is_digit in *. lia.
        -- injection E as -> ->. inversion Hip; subst. unfold is_digit in *. lia.
    + destruct ((x =? 101) || (x =? 69)) eqn:Ex.
      { exfalso. injection Ee as <- <-. destruct (opt_char _ s2) as [es s6].
        destruct (span_digits s6) as [ex s7]. destruct ex as [|e0 ex]; [discriminate|].
        injection H as <- _. apply denotes_chars in Hden. rewrite Forall_forall in Hden.
        specialize (Hden x). rewrite in_app_iff in Hden. cbn [In] in Hden. rewrite in_app_iff in Hden.
        cbn [In] in Hden. unfold is_digit in *. lia. }
      injection Ee as <- <-. cbn in H. injection H as <- <-.
      exists (c :: more). split; [exact Hz|].
      split. { intros c0 r0 [= <- <-]. split; [intros ->; now apply (Hnodot s2)|]. lia. }
      rewrite app_nil_r. rewrite app_nil_r in Hden.
      destruct Hsg as [(-> & ->)|(-> & -> & Hns)].
      * right. exists s1. spl; [exact Es|].
        destruct Hden as (ds & _ & HF & [(E & _)|[(E & _)|(_ & E & ->)]]).
        -- subst ds. inversion HF; subst. unfold is_digit in *. lia.
        -- discriminate.
        -- injection E as <-. reflexivity.
      * left. spl; [exact Es|].
        destruct Hden as (ds & _ & HF & [(E & ->)|[(E & _)|(_ & E & _)]]).
        -- cbn in E. now subst ds.
        -- injection E as -> ->. inversion Hip; subst. unfold is_digit in *. lia.
        -- injection E as -> ->. inversion Hip; subst. unfold is_digit in *. lia.
  - intros (d & Hz & Hend & H).
    assert (Hd : d = ip /\ rest = s2 /\ t = sg ++ ip /\ denotes_int true t v).
    { destruct Hz as (c & r & -> & Hz).
      destruct H as [(A & -> & ->)|(r0 & -> & A & -> & ->)].
      - pose proof (span_digits_spec _ _ _ A) as (E & HF & _).
        destruct Hsg as [(-> & ->)|(-> & -> & Hns)].
        + exfalso. injection E as <- _. inversion HF; subst. unfold is_digit in *. lia.
        + destruct (Hspan _ _ eq_refl A) as [<- <-]. spl.
          exists (c :: r). spl; [discriminate|assumption|]. left. split; reflexivity.
      - pose proof (span_digits_spec _ _ _ A) as (E & HF & _).
        destruct Hsg as [(-> & E1)|(-> & -> & Hns)].
        + injection E1 as ->. rewrite Es in A. injection A as -> ->. spl.
          exists (c :: r). spl; [discriminate|assumption|]. right. right. spl.
        + exfalso. now apply (Hns r0). }
    destruct Hd as (-> & -> & -> & Hden). split; [|exact Hden].
    destruct Hz as (c & r & -> & Hz).
    replace ((c =? 48) && negb match r with [] => true | _ => false end) with false
      by (destruct (Z.eqb_spec c 48) as [E|]; [now rewrite (Hz E)|reflexivity]).
    destruct s2 as [|x s2]; [cbn; now rewrite !app_nil_r|].
    destruct (Hend x s2 eq_refl) as (H1 & H2 & H3). unfold opt_char.
    replace (x =? 46) with false by lia. cbv iota beta.
    replace ((x =? 101) || (x =? 69)) with false by lia. cbv iota beta. now rewrite !app_nil_r.
Qed.

Lemma de_number_spec s v rest :
  de_number s = Some (v, rest) <->
  exists t, jnumber s = Some (t, rest) /\ t <> lit "-0" /\ denotes_int true t v /\ - 2 ^ 63 <= v < 2 ^ 64.
Proof.
  transitivity (exists t, (jnumber s = Some (t, rest) /\ denotes_int true t v)
                          /\ t <> lit "-0" /\ - 2 ^ 63 <= v < 2 ^ 64).
  2:{ split; intros (t & H); exists t; tauto. }
  transitivity (exists t d, (no_leading_zero d /\ ends_int rest /\
    ((span_digits s = (d, rest) /\ t = d /\ v = dec_value d) \/
     (exists r, s = 45 :: r /\ span_digits r = (d, rest) /\ t = 45 :: d /\ v = - dec_value d)))
     /\ t <> lit "-0" /\ - 2 ^ 63 <= v < 2 ^ 64).
  2:{ split.
      - intros (t & d & H & H'). exists t. split; [|exact H']. apply jnumber_int. now exists d.
      - intros (t & H & H'). apply jnumber_int in H as (d & H). now exists t, d. }
  change (lit "-0") with [45; 48]. unfold de_number. destruct s as [|c r].
  { split; [discriminate|]. intros (t & d & ((c & r & -> & _) & _ & [(A & _)|(r0 & A & _)]) & _); discriminate. }
  destruct (c =? 45) eqn:Ec.
  - apply Z.eqb_eq in Ec. subst c. split.
    + destruct (de_magnitude r) as [[n t]|] eqn:E; [|discriminate].
      apply de_magnitude_spec in E as (d & Hd & Hz & -> & He).
      destruct ((dec_value d =? 0) || (2 ^ 63 <? dec_value d)) eqn:Eb; [discriminate|].
      intros [= <- <-]. exists (45 :: d), d.
      pose proof (span_digits_spec _ _ _ Hd) as (_ & HF & _).
      pose proof (dec_value_nonneg _ HF).
      spl; try assumption; try lia.
      * right. exists r. spl; assumption.
      * intros [= ->]. discriminate.
    + intros (t & d & (Hz & He & [(A & -> & ->)|(r0 & [= <-] & A & -> & ->)]) & Hne & Hr).
      * exfalso. cbn in A. injection A as <- <-. destruct Hz as (? & ? & Hz & _). discriminate.
      * pose proof (span_digits_spec _ _ _ A) as (_ & HF & _).
        pose proof (dec_value_nonneg _ HF).
        assert (Hm : de_magnitude r = Some (dec_value d, rest)) by (apply de_magnitude_spec; now exists d).
        rewrite Hm.
        assert (dec_value d <> 0).
        { intros E0. destruct Hz as (c & q & -> & Hz). inversion HF; subst.
          cbn [dec_value] in E0. pose proof (dec_value_nonneg _ H3). unfold is_digit in H2.
          pose proof (pow10_pos (length q)). assert (c = 48) by nia. subst c. now rewrite Hz in Hne. }
        replace ((dec_value d =? 0) || (2 ^ 63 <? dec_value d)) with false by lia. reflexivity.
  - split.
    + destruct (de_magnitude (c :: r)) as [[n t]|] eqn:E; [|discriminate].
      apply de_magnitude_spec in E as (d & Hd & Hz & -> & He).
      destruct (dec_value d <? 2 ^ 64) eqn:Eb; [|discriminate].
      intros [= <- <-]. exists d, d.
      pose proof (span_digits_spec _ _ _ Hd) as (_ & HF & _).
      pose proof (dec_value_nonneg _ HF).
      spl; try assumption; try lia.
      * left. spl; assumption.
      * intros ->. inversion HF; subst. unfold is_digit in *. lia.
    + intros (t & d & (Hz & He & [(A & -> & ->)|(r0 & [= -> <-] & A & -> & ->)]) & Hne & Hr).
      * assert (Hm : de_magnitude (c :: r) = Some (dec_value d, rest)) by (apply de_magnitude_spec; now exists d).
        rewrite Hm. replace (dec_value d <? 2 ^ 64) with true by lia. reflexivity.
      * discriminate.
Qed.

(** ** Values *)

Lemma skip_jws_idem s : skip_jws (skip_jws s) = skip_jws s.
Proof.
  induction s as [|c s IH]; [reflexivity|]. cbn. destruct (jws c) eqn:E; [exact IH|]. cbn. now rewrite E.
Qed.

Lemma jnumber_first s t r : jnumber s = Some (t, r) ->
  exists c q, s = c :: q /\ (c = 45 \/ jdigit c = true).
Proof.
  unfold jnumber, opt_char. destruct s as [|c q]; [discriminate|].
  intros H. exists c, q. split; [reflexivity|].
  destruct (c =? 45) eqn:E; [left; lia|]. right. cbn [span_digits] in H.
  destruct (jdigit c); [reflexivity|discriminate].
Qed.

Lemma jvalue_num f s t r : jvalue (S f) s = Some (JNum t, r) <-> jnumber (skip_jws s) = Some (t, r).
Proof.
  cbn [jvalue]. destruct (skip_jws s) as [|c q]; [split; [discriminate|]; intros H; discriminate|].
  split.
  - destruct (c =? 34); [destruct (jstring q) as [[? ?]|]; discriminate|].
    destruct (c =? 123).
    { intros H. exfalso. revert H.
      assert (A : forall t0, match jmembers f t0 with
        | Some (m, t') => Some (JObj m, t') | None => None end = Some (JNum t, r) -> False).
      { intros t0. destruct (jmembers f t0) as [[? ?]|]; discriminate. }
      destruct (skip_jws q) as [|x q']; [apply A|].
      destruct (Z.eq_dec x 125) as [->|Hx]; [discriminate|].
      intros H. apply (A (x :: q')). rewrite <- H. clear -Hx.
      destruct x as [|p|p]; try reflexivity.
      do 7 (destruct p; try reflexivity). congruence. }
    destruct (c =? 91).
    { intros H. exfalso. revert H.
      assert (A : forall t0, match jelements f t0 with
        | Some (m, t') => Some (JArr m, t') | None => None end = Some (JNum t, r) -> False).
      { intros t0. destruct (jelements f t0) as [[? ?]|]; discriminate. }
      destruct (skip_jws q) as [|x q']; [apply A|].
      destruct (Z.eq_dec x 93) as [->|Hx]; [discriminate|].
      intros H. apply (A (x :: q')). rewrite <- H. clear -Hx.
      destruct x as [|p|p]; try reflexivity.
      do 7 (destruct p; try reflexivity). congruence. }
    destruct (strip_prefix (lit "true") (c :: q)); [discriminate|].
    destruct (strip_prefix (lit "false") (c :: q)); [discriminate|].
    destruct (strip_prefix (lit "null") (c :: q)); [discriminate|].
    destruct (jnumber (c :: q)) as [[n t']|]; [|discriminate]. now intros [= <- <-].
  - intros H. destruct (jnumber_first _ _ _ H) as (c' & q' & [= <- <-] & Hc).
    assert (B : 45 <= c <= 57) by (destruct Hc as [->|Hc]; [lia|unfold jdigit in Hc; lia]).
    replace (c =? 34) with false by lia. replace (c =? 123) with false by lia.
    replace (c =? 91) with false by lia.
    assert (P : forall x p, 57 < x -> strip_prefix (x :: p) (c :: q) = None).
    { intros x p Hx. cbn [strip_prefix]. now replace (x =? c) with false by lia. }
    change (lit "true") with (116 :: lit "rue"). change (lit "false") with (102 :: lit "alse").
    change (lit "null") with (110 :: lit "ull").
    rewrite (P 116 (lit "rue")), (P 102 (lit "alse")), (P 110 (lit "ull")) by lia. now rewrite H.
Qed.

(** The value of a text that does not begin an object or array does not depend
    on the fuel; that of an object, in steps. *)
Definition obj_of (o : option (list (str * json) * str)) : option (json * str) :=
  match o with Some (m, t) => Some (JObj m, t) | None => None end.
Definition arr_of (o : option (list json * str)) : option (json * str) :=
  match o with Some (m, t) => Some (JArr m, t) | None => None end.

Lemma jvalue_eq f s : jvalue (S f) s =
  match skip_jws s with
  | [] => None
  | c :: r =>
      if c =? 34 then match jstring r with Some (x, t) => Some (JStr x, t) | None => None end
      else if c =? 123 then
        match de_char 125 r with Some t => Some (JObj [], t) | None => obj_of (jmembers f (skip_jws r)) end
      else if c =? 91 then
        match de_char 93 r with Some t => Some (JArr [], t) | None => arr_of (jelements f (skip_jws r)) end
      else match strip_prefix (lit "true") (c :: r) with Some t => Some (JBool true, t) | None =>
      match strip_prefix (lit "false") (c :: r) with Some t => Some (JBool false, t) | None =>
      match strip_prefix (lit "null") (c :: r) with Some t => Some (JNull, t) | None =>
      match jnumber (c :: r) with Some (n, t) => Some (JNum n, t) | None => None end end end end
  end.
Proof.
  cbn [jvalue]. destruct (skip_jws s) as [|c r]; [reflexivity|].
  destruct (c =? 34); [reflexivity|].
  destruct (c =? 123).
  { unfold de_char. destruct (skip_jws r) as [|x q]; [reflexivity|].
    destruct (Z.eqb_spec x 125) as [->|Hx]; [reflexivity|].
    destruct x as [|p|p]; try reflexivity. do 7 (destruct p; try reflexivity). congruence. }
  destruct (c =? 91); [|reflexivity].
  unfold de_char. destruct (skip_jws r) as [|x q]; [reflexivity|].
  destruct (Z.eqb_spec x 93) as [->|Hx]; [reflexivity|].
  destruct x as [|p|p]; try reflexivity. do 7 (destruct p; try reflexivity). congruence.
Qed.

Lemma jmembers_eq f s : jmembers (S f) s =
  match de_str s with
  | None => None
  | Some (k, t) =>
      match de_char 58 t with
      | None => None
      | Some t1 =>
          match jvalue f t1 with
          | None => None
          | Some (v, t2) =>
              match de_char 125 t2 with
              | Some t3 => Some ([(k, v)], t3)
              | None =>
                  match de_char 44 t2 with
                  | Some t3 => match jmembers f t3 with Some (m, t4) => Some ((k, v) :: m, t4) | None => None end
                  | None => None
                  end
              end
          end
      end
  end.
Proof.
  cbn [jmembers]. unfold de_str. destruct (skip_jws s) as [|x q]; [reflexivity|].
  destruct (Z.eqb_spec x 34) as [->|Hx].
  2:{ destruct x as [|p|p]; try reflexivity. do 6 (destruct p; try reflexivity). congruence. }
  destruct (jstring q) as [[k t]|]; [|reflexivity].
  unfold de_char at 1. destruct (skip_jws t) as [|x q1]; [reflexivity|].
  destruct (Z.eqb_spec x 58) as [->|Hx].
  2:{ destruct x as [|p|p]; try reflexivity. do 6 (destruct p; try reflexivity). congruence. }
  destruct (jvalue f q1) as [[v t2]|]; [|reflexivity].
  unfold de_char. destruct (skip_jws t2) as [|x q2]; [reflexivity|].
  destruct (Z.eqb_spec x 125) as [->|Hx]; [reflexivity|].
  destruct (Z.eqb_spec x 44) as [->|Hy]; [reflexivity|].
  destruct x as [|p|p]; try reflexivity. do 7 (try destruct p; try reflexivity; try congruence).
Qed.

Lemma jvalue_str f s x r : jvalue (S f) s = Some (JStr x, r) <-> de_str s = Some (x, r).
Proof.
  rewrite jvalue_eq. unfold de_str. destruct (skip_jws s) as [|c q]; [split; discriminate|].
  destruct (c =? 34).
  { destruct (jstring q) as [[y t]|]; [|split; discriminate]. split; intros [= <- <-]; reflexivity. }
  split; [|discriminate]. intros H. exfalso. revert H.
  destruct (c =? 123). { destruct (de_char 125 q); [discriminate|]. destruct (jmembers _ _) as [[? ?]|]; discriminate. }
  destruct (c =? 91). { destruct (de_char 93 q); [discriminate|]. destruct (jelements _ _) as [[? ?]|]; discriminate. }
  destruct (strip_prefix _ _); [discriminate|]. destruct (strip_prefix _ _); [discriminate|].
  destruct (strip_prefix _ _); [discriminate|]. destruct (jnumber _) as [[? ?]|]; discriminate.
Qed.

Lemma jvalue_null f s r : jvalue (S f) s = Some (JNull, r) <-> de_null s = Some r.
Proof.
  rewrite jvalue_eq. unfold de_null. destruct (skip_jws s) as [|c q]; [split; discriminate|].
  split.
  - destruct (c =? 34); [destruct (jstring q) as [[y t]|]; discriminate|].
    destruct (c =? 123). { destruct (de_char 125 q); [discriminate|]. destruct (jmembers _ _) as [[? ?]|]; discriminate. }
    destruct (c =? 91). { destruct (de_char 93 q); [discriminate|]. destruct (jelements _ _) as [[? ?]|]; discriminate. }
    destruct (strip_prefix (lit "true") _); [discriminate|]. destruct (strip_prefix (lit "false") _); [discriminate|].
    destruct (strip_prefix _ _); [|destruct (jnumber _) as [[? ?]|]; discriminate]. now intros [= <-].
  - change (lit "null") with (110 :: lit "ull"). intros H.
    assert (c = 110). { cbn [strip_prefix] in H. destruct (Z.eqb_spec 110 c); [now subst|discriminate]. }
    subst c. change (110 =? 34) with false. change (110 =? 123) with false. change (110 =? 91) with false.
    cbv iota. change (strip_prefix (lit "true") (110 :: q)) with (@None str).
    change (strip_prefix (lit "false") (110 :: q)) with (@None str). cbv iota. now rewrite H.
Qed.

(** What the JSON number of a text says, as an integer. *)
Definition json_int (j : json) (v : Z) : Prop :=
  exists t, j = JNum t /\ t <> lit "-0" /\ denotes_int true t v.

Lemma de_int_spec lo hi f s v r : - 2 ^ 63 <= lo -> hi < 2 ^ 64 ->
  de_int lo hi s = Some (v, r) <->
  exists j, jvalue (S f) s = Some (j, r) /\ json_int j v /\ lo <= v <= hi.
Proof.
  intros Hlo Hhi. unfold de_int. split.
  - destruct (de_number (skip_jws s)) as [[n t]|] eqn:E; [|discriminate].
    destruct ((lo <=? n) && (n <=? hi)) eqn:B; [|discriminate]. intros [= -> ->].
    apply de_number_spec in E as (x & A & Hne & Hd & _).
    exists (JNum x). split; [now apply jvalue_num|]. split; [|lia]. now exists x.
  - intros (j & A & (x & -> & Hne & Hd) & B). apply jvalue_num in A.
    assert (E : de_number (skip_jws s) = Some (v, r)).
    { apply de_number_spec. exists x. spl; try assumption; lia. }
    rewrite E. replace ((lo <=? v) && (v <=? hi)) with true by lia. reflexivity.
Qed.

Lemma jmembers_nonempty f s t : jmembers f s = Some ([], t) -> False.
Proof.
  destruct f; [discriminate|]. rewrite jmembers_eq.
  destruct (de_str s) as [[k t0]|]; [|discriminate].
  destruct (de_char 58 t0) as [t1|]; [|discriminate].
  destruct (jvalue f t1) as [[v t2]|]; [|discriminate].
  destruct (de_char 125 t2) as [t3|]; [discriminate|].
  destruct (de_char 44 t2) as [t3|]; [|discriminate].
  destruct (jmembers f t3) as [[? ?]|]; discriminate.
Qed.

(** An object with one member. *)
Lemma jvalue_one f s k v r :
  jvalue (S (S f)) s = Some (JObj [(k, v)], r) <->
  exists r0 r1 r2 r3, de_char 123 s = Some r0 /\ de_str r0 = Some (k, r1) /\ de_char 58 r1 = Some r2
    /\ jvalue f r2 = Some (v, r3) /\ de_char 125 r3 = Some r.
Proof.
  rewrite jvalue_eq.
  assert (E123 : de_char 123 s = match skip_jws s with c :: r => if c =? 123 then Some r else None | [] => None end)
    by reflexivity.
  rewrite E123. clear E123. destruct (skip_jws s) as [|c q].
  { split; [discriminate|]. intros (? & ? & ? & ? & A & _). discriminate. }
  destruct (Z.eqb_spec c 123) as [->|Hc].
  2:{ split; [|intros (? & ? & ? & ? & A & _); discriminate]. intros H. exfalso. revert H.
      destruct (c =? 34); [destruct (jstring q) as [[? ?]|]; discriminate|].
      destruct (c =? 91). { destruct (de_char 93 q); [discriminate|]. destruct (jelements _ _) as [[? ?]|]; discriminate. }
      destruct (strip_prefix _ _); [discriminate|]. destruct (strip_prefix _ _); [discriminate|].
      destruct (strip_prefix _ _); [discriminate|]. destruct (jnumber _) as [[? ?]|]; discriminate. }
  change (123 =? 34) with false. cbv iota. rewrite jmembers_eq.
  assert (Hq : de_str (skip_jws q) = de_str q) by (unfold de_str; now rewrite skip_jws_idem). rewrite Hq.
  split.
  - destruct (de_char 125 q) eqn:E0; [discriminate|].
    destruct (de_str q) as [[k' t]|] eqn:E1; [|discriminate].
    destruct (de_char 58 t) as [t1|] eqn:E2; [|discriminate].
    destruct (jvalue f t1) as [[v' t2]|] eqn:E3; [|discriminate].
    destruct (de_char 125 t2) as [t3|] eqn:E4.
    + cbn. intros [= <- <- <-]. exists q, t, t1, t2. spl; assumption.
    + destruct (de_char 44 t2) as [s0|]; [|discriminate]. destruct (jmembers f s0) as [[m t4]|] eqn:Em; [|discriminate].
      cbn. intros [= _ _ -> _]. exfalso. now apply jmembers_nonempty in Em.
  - intros (r0 & r1 & r2 & r3 & [= <-] & A & B & C & D).
    assert (E : de_char 125 q = None).
    { unfold de_char. unfold de_str in A. destruct (skip_jws q) as [|x y]; [discriminate|].
      destruct (Z.eqb_spec x 125) as [->|]; [discriminate|reflexivity]. }
    rewrite E, A, B, C, D. reflexivity.
Qed.

Lemma de_char_length e s r : de_char e s = Some r -> (length r < length s)%nat.
Proof.
  unfold de_char. intros H.
  assert (A : (length (skip_jws s) <= length s)%nat).
  { clear. induction s as [|c s IH]; cbn; [lia|]. destruct (jws c); cbn; lia. }
  destruct (skip_jws s) as [|c q]; [discriminate|]. destruct (c =? e); [|discriminate].
  injection H as <-. cbn in A. lia.
Qed.

Lemma de_str_nonempty s p : de_str s = Some p -> (0 < length s)%nat.
Proof. destruct s; cbn; [discriminate|lia]. Qed.

(** One variant of an enum. *)
Lemma de_variant_spec {A} (payload : str -> str -> option (A * str)) (holds : str -> json -> A -> Prop) :
  (forall name f s x r, payload name s = Some (x, r) <->
     exists j, jvalue (S f) s = Some (j, r) /\ holds name j x) ->
  forall s x r, de_variant payload s = Some (x, r) <->
    exists name j, jvalue (S (length s)) s = Some (JObj [(name, j)], r) /\ holds name j x.
Proof.
  intros HP s x r. unfold de_variant. split.
  - destruct (de_char 123 s) as [r0|] eqn:E0; [|discriminate].
    destruct (de_str r0) as [[name r1]|] eqn:E1; [|discriminate].
    destruct (de_char 58 r1) as [r2|] eqn:E2; [|discriminate].
    destruct (payload name r2) as [[y r3]|] eqn:E3; [|discriminate].
    destruct (de_char 125 r3) as [r4|] eqn:E4; [|discriminate].
    intros [= <- <-].
    pose proof (de_char_length _ _ _ E0). pose proof (de_str_nonempty _ _ E1).
    destruct (length s) as [|[|n]] eqn:El; [lia|lia|].
    apply (HP name n) in E3 as (j & Hj & Hh). exists name, j. split; [|exact Hh].
    apply jvalue_one. exists r0, r1, r2, r3. spl; assumption.
  - intros (name & j & H & Hh). destruct (length s) as [|[|n]] eqn:El.
    + destruct s; [discriminate|discriminate].
    + apply jvalue_one in H as (r0 & r1 & r2 & r3 & A0 & A1 & A2 & A3 & A4).
      discriminate.
    + apply jvalue_one in H as (r0 & r1 & r2 & r3 & A0 & A1 & A2 & A3 & A4).
      rewrite A0, A1, A2.
      assert (E : payload name r2 = Some (x, r3)) by (apply (HP name n); now exists j).
      now rewrite E, A4.
Qed.

Lemma from_str_spec {A} (de : str -> option (A * str)) (holds : json -> A -> Prop) :
  (forall s x r, de s = Some (x, r) <->
     exists j, jvalue (S (length s)) s = Some (j, r) /\ holds j x) ->
  forall s x, from_str de s = Some x <-> exists j, parse_json s = Some j /\ holds j x.
Proof.
  intros HD s x. unfold from_str, parse_json. split.
  - destruct (de s) as [[y r]|] eqn:E; [|discriminate].
    apply HD in E as (j & Hj & Hh). rewrite Hj. destruct (skip_jws r); [|discriminate].
    intros [= <-]. now exists j.
  - intros (j & Hj & Hh). destruct (jvalue (S (length s)) s) as [[j' r]|] eqn:E; [|discriminate].
    destruct (skip_jws r) eqn:Er; [|discriminate]. injection Hj as ->.
    assert (E1 : de s = Some (x, r)) by (apply HD; now exists j). now rewrite E1, Er.
Qed.

Lemma str_eqb_iff a b : str_eqb a b = true <-> a = b.
Proof.
  split; [|intros ->; apply str_eqb_refl]. intros H.
  destruct (str_eq_dec a b) as [E|E]; [exact E|]. apply str_eqb_neq in E. congruence.
Qed.

(** ** C103 *)

(** The JSON texts each type is read from, and nothing else. *)
Theorem C103_coordinate_exact : forall s v,
  coord_of_json s = Some v <-> exists j, parse_json s = Some j /\ json_int j v /\ in_i32 v.
Proof.
  intros s v. unfold coord_of_json.
  rewrite (from_str_spec _ (fun j x => json_int j x /\ in_i32 x)); [reflexivity|].
  intros s0 x r. rewrite (de_int_spec _ _ (length s0)) by lia. unfold in_i32.
  split; intros (j & A & B & C); exists j; (split; [exact A|split; [exact B|lia]]).
Qed.
Print Assumptions C103_coordinate_exact.

Theorem C103_timestamp_exact : forall s t,
  timestamp_of_json s = Some t <->
  match t with
  | ISOString x => parse_json s = Some (JObj [(lit "ISOString", JStr x)])
  | EpochNumber n =>
      exists j, parse_json s = Some (JObj [(lit "EpochNumber", j)]) /\ json_int j n /\ in_i64 n
  end.
Proof.
  intros s t. unfold timestamp_of_json.
  pose (holds := fun (name : str) (j : json) (t : timestamp) =>
    match t with
    | ISOString x => name = lit "ISOString" /\ j = JStr x
    | EpochNumber n => name = lit "EpochNumber" /\ json_int j n /\ in_i64 n
    end).
  rewrite (from_str_spec _ (fun j t => exists name j', j = JObj [(name, j')] /\ holds name j' t)).
  - destruct t as [x|n]; cbn [holds].
    + split; [|intros H; exists (JObj [(lit "ISOString", JStr x)]); split; [exact H|]; now exists (lit "ISOString"), (JStr x)].
      now intros (j & A & name & j' & -> & -> & ->).
    + split.
      * intros (j & A & name & j' & -> & -> & B). now exists j'.
      * intros (j & A & B). exists (JObj [(lit "EpochNumber", j)]). split; [exact A|]. now exists (lit "EpochNumber"), j.
  - intros s0 x r. unfold de_timestamp. rewrite (de_variant_spec _ holds).
    + split.
      * intros (name & j & A & B). exists (JObj [(name, j)]). split; [exact A|]. now exists name, j.
      * intros (j0 & A & name & j & -> & B). now exists name, j.
    + intros name f s1 y r1. destruct (str_eqb name (lit "ISOString")) eqn:E1.
      { apply str_eqb_iff in E1. subst name. split.
        - destruct (de_str s1) as [[z q]|] eqn:E; [|discriminate]. intros [= <- <-].
          exists (JStr z). split; [now apply jvalue_str|]. split; reflexivity.
        - intros (j & A & B). destruct y as [z|n]; cbn [holds] in B; [|destruct B; discriminate].
          destruct B as [_ ->]. apply jvalue_str in A. now rewrite A. }
      destruct (str_eqb name (lit "EpochNumber")) eqn:E2.
      { apply str_eqb_iff in E2. subst name. split.
        - destruct (de_int _ _ s1) as [[z q]|] eqn:E; [|discriminate]. intros [= <- <-].
          apply (de_int_spec _ _ f) in E as (j & A & B & C); [|lia|lia].
          exists j. split; [exact A|]. split; [reflexivity|]. split; [exact B|]. unfold in_i64. lia.
        - intros (j & A & B). destruct y as [z|n]; cbn [holds] in B; [destruct B; discriminate|].
          destruct B as (_ & B & C). unfold in_i64 in C.
          assert (E : de_int (- 2 ^ 63) (2 ^ 63 - 1) s1 = Some (n, r1)).
          { apply (de_int_spec _ _ f); [lia|lia|]. exists j. spl; try assumption; lia. }
          now rewrite E. }
      split; [discriminate|]. intros (j & A & B). apply str_eqb_neq in E1, E2.
      destruct y; cbn [holds] in B; tauto.
Qed.
Print Assumptions C103_timestamp_exact.

(** The names of the object types. *)
Definition type_name (t : objtype) : str :=
  match t with TNode => lit "Node" | TWay => lit "Way" | TRelation => lit "Relation" end.

Lemma objtype_named_iff name t : objtype_named name = Some t <-> name = type_name t.
Proof.
  unfold objtype_named. split.
  - destruct (str_eqb name (lit "Node")) eqn:E1; [intros [= <-]; now apply str_eqb_iff|].
    destruct (str_eqb name (lit "Way")) eqn:E2; [intros [= <-]; now apply str_eqb_iff|].
    destruct (str_eqb name (lit "Relation")) eqn:E3; [intros [= <-]; now apply str_eqb_iff|discriminate].
  - intros ->. now destruct t.
Qed.

Theorem C103_object_type_exact : forall s t,
  objtype_of_json s = Some t <->
  parse_json s = Some (JStr (type_name t)) \/ parse_json s = Some (JObj [(type_name t, JNull)]).
Proof.
  intros s t. unfold objtype_of_json.
  rewrite (from_str_spec _ (fun j t => j = JStr (type_name t) \/ j = JObj [(type_name t, JNull)])).
  - split.
    + intros (j & A & [ -> | -> ]); [now left|now right].
    + intros [A|A]; eexists; (split; [exact A|]); [now left|now right].
  - intros s0 x r. unfold de_objtype.
    assert (HV := de_variant_spec
      (fun name r => match objtype_named name with
         | Some o => match de_null r with Some t => Some (o, t) | None => None end
         | None => None end)
      (fun name j t => name = type_name t /\ j = JNull)).
    destruct (skip_jws s0) as [|c q] eqn:Es.
    { split; [discriminate|]. intros (j & A & _). rewrite jvalue_eq, Es in A. discriminate. }
    destruct (Z.eqb_spec c 34) as [->|Hc].
    + split.
      * destruct (de_str s0) as [[name t0]|] eqn:E; [|discriminate].
        destruct (objtype_named name) as [o|] eqn:En; [|discriminate]. intros [= <- <-].
        apply objtype_named_iff in En. subst name. exists (JStr (type_name o)).
        split; [now apply jvalue_str|now left].
      * intros (j & A & [ -> | -> ]).
        -- apply jvalue_str in A. rewrite A. assert (En : objtype_named (type_name x) = Some x) by now apply objtype_named_iff.
           now rewrite En.
        -- exfalso. rewrite jvalue_eq, Es in A. change (34 =? 34) with true in A. cbv iota in A.
           destruct (jstring q) as [[? ?]|]; discriminate.
    + rewrite HV.
      * split.
        -- intros (name & j & A & -> & ->). eexists. split; [exact A|now right].
        -- intros (j & A & [ -> | -> ]).
           ++ exfalso. apply jvalue_str in A. unfold de_str in A. rewrite Es in A.
              destruct (Z.eqb_spec c 34); [congruence|discriminate].
           ++ exists (type_name x), JNull. split; [exact A|split; reflexivity].
      * intros name f s1 y r1. split.
        -- destruct (objtype_named name) as [o|] eqn:En; [|discriminate].
           destruct (de_null s1) as [t1|] eqn:E; [|discriminate]. intros [= <- <-].
           exists JNull. split; [now apply jvalue_null|]. split; [now apply objtype_named_iff|reflexivity].
        -- intros (j & A & -> & ->). apply jvalue_null in A.
           assert (En : objtype_named (type_name y) = Some y) by now apply objtype_named_iff.
           now rewrite En, A.
Qed.
Print Assumptions C103_object_type_exact.

(** ** What is written *)

Lemma show_digits_head fuel : forall n acc, 0 < n -> n < 2 ^ Z.of_nat fuel -> (0 < fuel)%nat ->
  exists c r, show_digits fuel n acc = c :: r /\ c <> 48.
Proof.
  induction fuel as [|f IH]; intros n acc H0 Hb Hf; [lia|]. cbn [show_digits].
  destruct (n <? 10) eqn:E.
  - exists (48 + n mod 10), acc. split; [reflexivity|]. rewrite Z.mod_small by lia. lia.
  - assert (1 <= n / 10) by (apply Z.div_le_lower_bound; lia).
    rewrite Nat2Z.inj_succ, Z.pow_succ_r in Hb by lia.
    assert (n / 10 < 2 ^ Z.of_nat f) by (apply Z.div_lt_upper_bound; lia).
    apply IH; [lia|assumption|]. destruct f; [cbn in *; lia|lia].
Qed.

Lemma show_uint_zero n : 0 <= n -> no_leading_zero (show_uint n).
Proof.
  intros H. destruct (Z.eq_dec n 0) as [->|Hn]; [now exists 48, []|].
  unfold show_uint. pose proof (Z.log2_nonneg n).
  destruct (show_digits_head (Z.to_nat (Z.log2 n + 1)) n []) as (c & r & -> & Hc); [lia| |lia|].
  - rewrite Z2Nat.id by lia. pose proof (Z.log2_spec n). lia.
  - exists c, r. split; [reflexivity|]. congruence.
Qed.

Lemma span_digits_all d : forall t, Forall is_digit d -> (forall c r, t = c :: r -> jdigit c = false) ->
  span_digits (d ++ t) = (d, t).
Proof.
  induction d as [|c d IH]; cbn [app]; intros t HF Ht.
  - destruct t as [|c r]; [reflexivity|]. cbn. now rewrite (Ht c r eq_refl).
  - inversion HF; subst. cbn [span_digits]. apply digitb_iff in H1. rewrite digit_jdigit in H1. rewrite H1.
    now rewrite IH.
Qed.

Lemma jnumber_show n t : (forall c r, t = c :: r -> jdigit c = false) -> ends_int t ->
  jnumber (show_int n ++ t) = Some (show_int n, t).
Proof.
  intros Ht He. pose proof (show_int_denotes n) as Hd.
  apply (jnumber_int (show_int n ++ t) (show_int n) t n). unfold show_int. destruct (n <? 0) eqn:E.
  - exists (show_uint (- n)). split; [apply show_uint_zero; lia|]. split; [exact He|]. right.
    destruct (show_uint_spec (- n)) as (A & _ & C); [lia|].
    exists (show_uint (- n) ++ t). spl; [now apply span_digits_all|]. lia.
  - exists (show_uint n). split; [apply show_uint_zero; lia|]. split; [exact He|]. left.
    destruct (show_uint_spec n) as (A & _ & C); [lia|]. spl; [now apply span_digits_all|]. lia.
Qed.

Lemma show_int_not_ws n t : skip_jws (show_int n ++ t) = show_int n ++ t.
Proof.
  pose proof (show_int_chars n) as H. pose proof (show_int_denotes n) as (ds & Hne & _ & Hd).
  destruct (show_int n) as [|c r].
  - destruct Hd as [(<- & _)|[(Hd & _)|(_ & Hd & _)]]; [easy|discriminate|discriminate].
  - cbn. inversion H; subst. unfold jws. unfold is_digit in *.
    replace ((c =? 32) || (c =? 9) || (c =? 10) || (c =? 13)) with false by lia. reflexivity.
Qed.

Lemma jvalue_show f n t : (forall c r, t = c :: r -> jdigit c = false) -> ends_int t ->
  jvalue (S f) (show_int n ++ t) = Some (JNum (show_int n), t).
Proof. intros. apply jvalue_num. rewrite show_int_not_ws. now apply jnumber_show. Qed.

Lemma show_int_minus_zero n : show_int n <> lit "-0".
Proof.
  intros H. pose proof (show_int_denotes n) as Hd. rewrite H in Hd. change (lit "-0") with [45; 48] in *.
  assert (n = 0).
  { destruct Hd as (ds & _ & HF & [(<- & _)|[(Hd & _)|(_ & [= <-] & ->)]]);
      [inversion HF; subst; unfold is_digit in *; lia|discriminate|reflexivity]. }
  subst n. discriminate.
Qed.

Lemma json_int_show n : json_int (JNum (show_int n)) n.
Proof. exists (show_int n). spl; [apply show_int_minus_zero|apply show_int_denotes]. Qed.

Lemma variant_json_parse name payload j : nonneg name ->
  (forall f t, (forall c r, t = c :: r -> jdigit c = false) -> ends_int t ->
     jvalue (S f) (payload ++ t) = Some (j, t)) ->
  parse_json (variant_json name payload) = Some (JObj [(name, j)]).
Proof.
  intros Hn Hp. unfold parse_json.
  assert (A : exists n, length (variant_json name payload) = S (S n)).
  { unfold variant_json, json_text. cbn [app length]. eexists. reflexivity. }
  destruct A as [n ->].
  assert (B : jvalue (S (S (S n))) (variant_json name payload) = Some (JObj [(name, j)], [])).
  2:{ now rewrite B. }
  apply jvalue_one. unfold variant_json.
  exists (json_text name ++ [58] ++ payload ++ [125]), ([58] ++ payload ++ [125]), (payload ++ [125]), [125].
  spl.
  - unfold json_text, de_str. cbn [app skip_jws]. change (jws 34) with false. cbv iota.
    change (34 =? 34) with true. cbv iota. rewrite <- app_assoc. now apply jstring_text.
  - apply Hp; [now intros c r [= <- <-]|]. intros c r [= <- <-]. lia.
Qed.

Lemma valid_lit_nonneg s : forallb (fun c => 0 <=? c) s = true -> nonneg s.
Proof. intros H. rewrite forallb_forall in H. apply Forall_forall. intros c Hc. specialize (H c Hc). lia. Qed.

(** The written texts are JSON texts of the values. *)
Theorem C103_written : forall n t,
  parse_json (coord_to_json n) = Some (JNum (show_int n)) /\
  (forall s, valid_str s ->
     parse_json (timestamp_to_json (ISOString s)) = Some (JObj [(lit "ISOString", JStr s)])) /\
  parse_json (timestamp_to_json (EpochNumber n)) = Some (JObj [(lit "EpochNumber", JNum (show_int n))]) /\
  parse_json (objtype_to_json t) = Some (JStr (type_name t)).
Proof.
  intros n t. spl.
  - unfold parse_json, coord_to_json. pose proof (jvalue_show (length (show_int n)) n []) as H.
    rewrite app_nil_r in H. rewrite H; [reflexivity|discriminate|discriminate].
  - intros s Hs. apply variant_json_parse; [now apply valid_lit_nonneg|].
    intros f r _ _. apply jvalue_text. now apply valid_nonneg.
  - apply variant_json_parse; [now apply valid_lit_nonneg|]. intros f r A B. now apply jvalue_show.
  - now destruct t.
Qed.
Print Assumptions C103_written.

(** What is written is read back. *)
Theorem C103_round_trip :
  (forall n, in_i32 n -> coord_of_json (coord_to_json n) = Some n) /\
  (forall s, valid_str s -> timestamp_of_json (timestamp_to_json (ISOString s)) = Some (ISOString s)) /\
  (forall n, in_i64 n -> timestamp_of_json (timestamp_to_json (EpochNumber n)) = Some (EpochNumber n)) /\
  (forall t, objtype_of_json (objtype_to_json t) = Some t).
Proof.
  spl.
  - intros n H. apply C103_coordinate_exact. exists (JNum (show_int n)).
    split; [apply (C103_written n TNode)|]. split; [apply json_int_show|exact H].
  - intros s H. apply (C103_timestamp_exact _ (ISOString s)). now apply (C103_written 0 TNode).
  - intros n H. apply (C103_timestamp_exact _ (EpochNumber n)). exists (JNum (show_int n)).
    split; [apply (C103_written n TNode)|]. split; [apply json_int_show|exact H].
  - intros t. apply C103_object_type_exact. left. apply (C103_written 0 t).
Qed.
Print Assumptions C103_round_trip.

Example C103_ex :
  coord_to_json (-12345678) = lit "-12345678"
  /\ timestamp_to_json (ISOString (lit "2020-01-01T00:00:00Z")) = lit "{""ISOString"":""2020-01-01T00:00:00Z""}"
  /\ timestamp_to_json (EpochNumber 1577836800) = lit "{""EpochNumber"":1577836800}"
  /\ objtype_to_json TRelation = lit """Relation"""
  /\ coord_of_json (lit " 2147483647 ") = Some 2147483647
  /\ coord_of_json (lit "2147483648") = None /\ coord_of_json (lit "-2147483648") = Some (- 2147483648)
  /\ coord_of_json (lit "1.0") = None /\ coord_of_json (lit "1e2") = None /\ coord_of_json (lit "-0") = None
  /\ coord_of_json (lit "01") = None /\ coord_of_json (lit "[1]") = None
  /\ timestamp_of_json (lit " { ""EpochNumber"" : -5 } ") = Some (EpochNumber (-5))
  /\ timestamp_of_json (lit """2020-01-01T00:00:00Z""") = None
  /\ timestamp_of_json (lit "{""EpochNumber"":1,""EpochNumber"":1}") = None
  /\ objtype_of_json (lit "{""Way"":null}") = Some TWay
  /\ objtype_of_json (lit """way""") = None.
Proof. spl. Qed.
