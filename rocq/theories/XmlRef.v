(** What the model's parsers make of references. *)
From Coq Require Import String ZArith List Bool Lia.
From Coq Require Import ZifyBool ZifyNat.
From Verif Require Import Base XmlToken SpecXmlRef.
Import ListNotations.
Open Scope Z_scope.

Lemma legal_iff c : legal c <-> xml_char c = true.
Proof. unfold legal, xml_char. lia. Qed.

Lemma digit_iff b c d : b = 10 \/ b = 16 -> (digit b c d <-> digit_of b c = Some d).
Proof.
  intros Hb. unfold digit_of. split.
  - intros [x Hx Hl|x Hx Hl|x Hx Hl].
    + replace ((48 <=? 48 + x) && (48 + x <=? 57)) with true by lia.
      replace (48 + x - 48) with x by lia. now replace (x <? b) with true by lia.
    + replace ((48 <=? 97 + (x - 10)) && (97 + (x - 10) <=? 57)) with false by lia.
      replace ((97 <=? 97 + (x - 10)) && (97 + (x - 10) <=? 102)) with true by lia.
      replace (97 + (x - 10) - 87) with x by lia. now replace (x <? b) with true by lia.
    + replace ((48 <=? 65 + (x - 10)) && (65 + (x - 10) <=? 57)) with false by lia.
      replace ((97 <=? 65 + (x - 10)) && (65 + (x - 10) <=? 102)) with false by lia.
      replace ((65 <=? 65 + (x - 10)) && (65 + (x - 10) <=? 70)) with true by lia.
      replace (65 + (x - 10) - 55) with x by lia. now replace (x <? b) with true by lia.
  - intros H.
    destruct ((48 <=? c) && (c <=? 57)) eqn:E1; [|destruct ((97 <=? c) && (c <=? 102)) eqn:E2;
      [|destruct ((65 <=? c) && (c <=? 70)) eqn:E3]].
    + destruct (c - 48 <? b) eqn:E; [|discriminate]. injection H as <-.
      replace c with (48 + (c - 48)) at 1 by lia. apply digit_num; lia.
    + destruct (c - 87 <? b) eqn:E; [|discriminate]. injection H as <-.
      replace c with (97 + (c - 87 - 10)) at 1 by lia. apply digit_low; lia.
    + destruct (c - 55 <? b) eqn:E; [|discriminate]. injection H as <-.
      replace c with (65 + (c - 55 - 10)) at 1 by lia. apply digit_up; lia.
    + destruct (99 <? b) eqn:E; [lia|discriminate].
Qed.

Lemma digits_iff b t : b = 10 \/ b = 16 -> forall acc v, digits_of b acc t = Some v <->
  exists ds, Forall2 (digit b) t ds /\ v = fold_left (fun a d => a * b + d) ds acc.
Proof.
  intros Hb. induction t as [|c t IH]; intros acc v; cbn [digits_of].
  - split.
    + intros [= <-]. exists []. split; [constructor|reflexivity].
    + intros (ds & F & ->). inversion F. reflexivity.
  - split.
    + destruct (digit_of b c) as [d|] eqn:E; [|discriminate]. intros H. apply IH in H as (ds & F & ->).
      exists (d :: ds). split; [|reflexivity]. constructor; [now apply digit_iff|exact F].
    + intros (ds & F & ->). inversion F as [|? d ? ds' Hd F']; subst. apply digit_iff in Hd; [|exact Hb]. rewrite Hd.
      apply IH. exists ds'. split; [exact F'|reflexivity].
Qed.

Lemma numeral_iff b t v : b = 10 \/ b = 16 -> t <> [] -> (numeral b t v <-> digits_of b 0 t = Some v).
Proof. intros Hb Ht. unfold numeral. rewrite digits_iff by exact Hb. tauto. Qed.

Lemma reference_iff r c : reference r = Some c <-> refers r c.
Proof.
  unfold reference, refers.
  destruct (str_eqb r (lit "lt")) eqn:E1; [apply str_eqb_eq in E1 as ->; split; [intros [= <-]; tauto|]|].
  { intros [[_ ->]|[[H _]|[[H _]|[[H _]|[[H _]|(_ & t & [[H _]|[H _]])]]]]]; try discriminate H. reflexivity. }
  destruct (str_eqb r (lit "gt")) eqn:E2; [apply str_eqb_eq in E2 as ->; split; [intros [= <-]; tauto|]|].
  { intros [[H _]|[[_ ->]|[[H _]|[[H _]|[[H _]|(_ & t & [[H _]|[H _]])]]]]]; try discriminate H. reflexivity. }
  destruct (str_eqb r (lit "amp")) eqn:E3; [apply str_eqb_eq in E3 as ->; split; [intros [= <-]; tauto|]|].
  { intros [[H _]|[[H _]|[[_ ->]|[[H _]|[[H _]|(_ & t & [[H _]|[H _]])]]]]]; try discriminate H. reflexivity. }
  destruct (str_eqb r (lit "quot")) eqn:E4; [apply str_eqb_eq in E4 as ->; split; [intros [= <-]; tauto|]|].
  { intros [[H _]|[[H _]|[[H _]|[[_ ->]|[[H _]|(_ & t & [[H _]|[H _]])]]]]]; try discriminate H. reflexivity. }
  destruct (str_eqb r (lit "apos")) eqn:E5; [apply str_eqb_eq in E5 as ->; split; [intros [= <-]; tauto|]|].
  { intros [[H _]|[[H _]|[[H _]|[[H _]|[[_ ->]|(_ & t & [[H _]|[H _]])]]]]]; try discriminate H. reflexivity. }
  apply str_eqb_neq in E1, E2, E3, E4, E5.
  set (body := match r with
    | 35 :: 120 :: _ :: _ => digits_of 16 0 (skipn 2 r)
    | 35 :: _ :: _ => digits_of 10 0 (skipn 1 r)
    | _ => None end).
  assert (B : forall v, body = Some v <-> exists t, (r = lit "#" ++ t /\ numeral 10 t v) \/ (r = lit "#x" ++ t /\ numeral 16 t v)).
  { intros v. subst body. split.
    - intros H. destruct r as [|a [|b r]]; [discriminate| |].
      + destruct (Z.eq_dec a 35) as [->|N]; [discriminate|].
        exfalso. revert H. destruct a as [|a|a]; try discriminate. do 7 (try (destruct a as [a|a|])); discriminate.
      + assert (a = 35) as ->.
        { destruct a as [|a|a]; try discriminate. do 6 (destruct a as [a|a|]; try discriminate). reflexivity. }
        destruct (Z.eq_dec b 120) as [->|N].
        * destruct r as [|d r].
          -- discriminate H.
          -- exists (d :: r). right. split; [reflexivity|]. apply numeral_iff; [lia|discriminate|exact H].
        * exists (b :: r). left. split; [reflexivity|]. apply numeral_iff; [lia|discriminate|].
          revert H. destruct b as [|b|b]; try (intros H; exact H).
          do 7 (try (destruct b as [b|b|]; try (intros H; exact H))). now elim N.
    - intros (t & [[-> Hn]|[-> Hn]]).
      + assert (t <> []) by apply Hn. destruct t as [|b t]; [easy|]. apply numeral_iff in Hn; [|lia|easy].
        destruct (Z.eq_dec b 120) as [->|N].
        * cbn in Hn. discriminate.
        * change (lit "#" ++ b :: t) with (35 :: b :: t). revert Hn N. cbn [skipn].
          destruct b as [|b|b]; try (intros Hd Hn; exact Hd).
          do 7 (try (destruct b as [b|b|]; try (intros Hd Hn; exact Hd))). intros _ N. now elim N.
      + assert (t <> []) by apply Hn. destruct t as [|b t]; [easy|]. apply numeral_iff in Hn; [|lia|easy]. exact Hn. }
  clearbody body. destruct body as [v|].
  - split.
    + destruct (xml_char v) eqn:Ev; [|discriminate]. intros [= <-]. do 5 right. split; [now apply legal_iff|]. now apply B.
    + intros [[H _]|[[H _]|[[H _]|[[H _]|[[H _]|(L & H)]]]]]; try easy. apply B in H. injection H as ->.
      apply legal_iff in L. now rewrite L.
  - split; [discriminate|]. intros [[H _]|[[H _]|[[H _]|[[H _]|[[H _]|(L & H)]]]]]; try easy. apply B in H. discriminate.
Qed.

Lemma refers_no_semi n c : refers n c -> ~ In 59 n.
Proof.
  intros H.
  assert (D : forall b t ds, Forall2 (digit b) t ds -> ~ In 59 t).
  { induction 1 as [|x d t ds Hd _ IH]; [easy|]. intros [->|I]; [|now apply IH].
    inversion Hd; lia. }
  destruct H as [[-> _]|[[-> _]|[[-> _]|[[-> _]|[[-> _]|(_ & t & [[-> (_ & ds & F & _)]|[-> (_ & ds & F & _)]])]]]]];
    try (cbn; intuition discriminate); apply D in F; cbn; intuition discriminate.
Qed.
