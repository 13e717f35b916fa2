(** Attribute values of XML texts. *)
From Coq Require Import String ZArith List Bool Lia.
From Coq Require Import ZifyBool ZifyNat.
From Verif Require Import Base SpecNum Ints Utf8 XmlToken Changesets QuickXml SpecXmlRef XmlRef SpecDump DumpFacts.
Import ListNotations.
Open Scope Z_scope.

Lemma digits_dec s : Forall is_digit s -> forall acc,
  digits_of 10 acc s = Some (acc * 10 ^ Z.of_nat (length s) + dec_value s).
Proof.
  induction 1 as [|c s Hc _ IH]; intros acc; cbn [digits_of dec_value length].
  - f_equal. change (10 ^ Z.of_nat 0) with 1. lia.
  - unfold digit_of, is_digit in *.
    replace ((48 <=? c) && (c <=? 57)) with true by lia.
    replace (c - 48 <? 10) with true by lia. rewrite IH. f_equal.
    rewrite Nat2Z.inj_succ, Z.pow_succ_r by lia. ring.
Qed.

Lemma xml_char_pos c : xml_char c = true -> 0 <= c.
Proof. unfold xml_char. lia. Qed.

Lemma numeral_show c : 0 <= c -> numeral 10 (show_int c) c.
Proof.
  intros H0. assert (E : show_int c = show_uint c). { unfold show_int. now replace (c <? 0) with false by lia. }
  rewrite E. destruct (show_uint_spec c H0) as (A & B & D). apply numeral_iff; [now left|exact B|].
  rewrite digits_dec by exact A. now rewrite D.
Qed.

Lemma value_ref n : ~ In 59 n -> forall acc cr v,
  q_value (Some acc) cr (n ++ 59 :: v) = match reference (acc ++ n) with
                                         | Some x => opt_map (cons x) (q_value None false v)
                                         | None => None
                                         end.
Proof.
  induction n as [|c n IH]; intros H acc cr v; cbn [app q_value].
  - now rewrite Z.eqb_refl, app_nil_r.
  - destruct (c =? 59) eqn:E; [exfalso; apply H; left; lia|].
    rewrite IH by (intros X; apply H; now right). now rewrite <- app_assoc.
Qed.

Lemma value_spelled v s : spelled v s -> forall cr, (cr = true -> hd 0 v <> 10) -> q_value None cr v = Some s.
Proof.
  induction 1 as [|c v s Hw Ha H IH|c v s Hw Hn H IH|v s H IH|n c v s Hc H IH]; intros cr Hcr.
  - reflexivity.
  - cbn [q_value]. replace (c =? 38) with false by lia.
    assert (Ew : ws c = false). { destruct (ws c) eqn:E; [|easy]. now apply ws_white in E. }
    assert (N10 : c <> 10) by (intros ->; apply Hw; unfold white; cbn; tauto).
    assert (N13 : c <> 13) by (intros ->; apply Hw; unfold white; cbn; tauto).
    replace (c =? 10) with false by lia. cbn [andb]. replace (c =? 13) with false by lia.
    rewrite Ew, IH by discriminate. reflexivity.
  - cbn [q_value]. rewrite (white_ws c Hw).
    replace (c =? 38) with false by (unfold white in Hw; cbn in Hw; lia).
    replace ((c =? 10) && cr) with false.
    2:{ destruct cr; [|now rewrite andb_false_r]. specialize (Hcr eq_refl). cbn in Hcr.
        replace (c =? 10) with false by lia. reflexivity. }
    rewrite IH; [reflexivity|]. intros E. apply Hn. lia.
  - cbn. rewrite IH by discriminate. reflexivity.
  - change (lit "&" ++ n ++ lit ";" ++ v) with (38 :: n ++ 59 :: v). cbn [q_value].
    replace (38 =? 38) with true by reflexivity.
    rewrite value_ref by (eapply refers_no_semi; exact Hc). cbn [app].
    apply reference_iff in Hc. rewrite Hc, IH by discriminate. reflexivity.
Qed.

Theorem norm_spelled v s : valid_str v -> spelled v s -> q_norm (utf8 v) = Some s.
Proof.
  intros Hv H. unfold q_norm. rewrite utf8_decode_encode by exact Hv. apply value_spelled; [exact H|discriminate].
Qed.

(** ... and the converse. *)
Lemma ref_ends l : forall acc cr s, q_value (Some acc) cr l = Some s ->
  exists n v x s', l = n ++ 59 :: v /\ reference (acc ++ n) = Some x /\ q_value None false v = Some s' /\ s = x :: s'.
Proof.
  induction l as [|c l IH]; intros acc cr s H; cbn [q_value] in H; [discriminate|].
  destruct (c =? 59) eqn:E.
  - apply Z.eqb_eq in E as ->. destruct (reference acc) as [x|] eqn:R; [|discriminate].
    destruct (q_value None false l) as [s'|] eqn:V; [|discriminate]. injection H as <-.
    exists [], l, x, s'. rewrite app_nil_r. now repeat split.
  - apply IH in H as (n & v & x & s' & -> & R & V & ->). exists (c :: n), v, x, s'. rewrite <- app_assoc in R. now repeat split.
Qed.

Lemma spelled_value k : forall v s, (length v < k)%nat -> q_value None false v = Some s -> spelled v s.
Proof.
  induction k as [|k IH]; intros v s Hk H; [lia|]. destruct v as [|c v]; cbn [q_value length] in *.
  - injection H as <-. constructor.
  - destruct (c =? 38) eqn:E1.
    { apply Z.eqb_eq in E1 as ->. apply ref_ends in H as (n & v' & x & s' & -> & R & V & ->). cbn [app] in R.
      apply reference_iff in R. rewrite app_length in Hk. cbn [length] in Hk.
      apply (sp_ref n x v' s' R). apply IH; [lia|exact V]. }
    rewrite andb_false_r in H.
    destruct (q_value None (c =? 13) v) as [s'|] eqn:V; [|discriminate]. injection H as <-.
    destruct (ws c) eqn:W.
    + destruct (c =? 13) eqn:E2.
      * apply Z.eqb_eq in E2 as ->. destruct v as [|d v].
        -- cbn in V. injection V as <-. apply sp_white; [cbn; tauto|discriminate|constructor].
        -- destruct (Z.eq_dec d 10) as [->|N].
           ++ cbn in V. apply sp_newline. apply IH; [cbn in Hk; lia|exact V].
           ++ apply sp_white; [cbn; tauto|intros _; exact N|]. apply IH; [lia|]. rewrite <- V. cbn [q_value].
              now replace (d =? 10) with false by lia.
      * apply sp_white; [now apply ws_white|intros ->; discriminate|]. apply IH; [lia|exact V].
    + replace (c =? 13) with false in V by (unfold ws in W; lia).
      apply sp_char; [intros Hw; apply white_ws in Hw; congruence|lia|]. apply IH; [lia|exact V].
Qed.

Theorem norm_exact raw s : q_norm raw = Some s <-> exists v, valid_str v /\ raw = utf8 v /\ spelled v s.
Proof.
  split.
  - unfold q_norm. destruct (utf8_decode raw) as [v|] eqn:E; [|discriminate]. apply utf8_decode_inv in E as [Hv ->].
    intros H. exists v. split; [exact Hv|]. split; [reflexivity|]. eapply spelled_value; [|exact H]. constructor.
  - intros (v & Hv & -> & H). now apply norm_spelled.
Qed.
