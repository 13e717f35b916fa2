(** C55 continued: exactly which chains survive. *)
From Coq Require Import ZArith List Bool Lia.
From Coq Require Import ZifyBool ZifyNat.
From Verif Require Import Base NodeChain PropsChain.
Import ListNotations.
Open Scope Z_scope.

(** No node is repeated immediately. *)
Fixpoint no_repeat (prev : Z) (l : list Z) : Prop :=
  match l with [] => True | n :: r => n <> prev /\ no_repeat n r end.

Lemma survives_mono first l : forall (P Q : Prop) prev, (P -> Q) -> survives first P prev l -> survives first Q prev l.
Proof.
  induction l as [|n l IH]; intros P Q prev H; cbn [survives]; [easy|]. intros [(-> & K)|[K|(K1 & K2 & K3 & K4)]].
  - left. split; [reflexivity|]. revert K. apply IH. tauto.
  - right. now left.
  - right. right. split; [exact K1|]. split; [now apply H|]. split; [exact K3|exact K4].
Qed.

Lemma be64_bytes v : 0 <= v < 2^64 -> Forall byte (be64 v).
Proof.
  intros H. assert (M : forall x, byte (x mod 256)) by (intros x; unfold byte; Z.div_mod_to_equations; lia).
  unfold be64. constructor; [|repeat constructor; apply M].
  unfold byte. split; [apply Z.div_pos; lia|]. assert (v / 2^56 < 256); [apply Z.div_lt_upper_bound; lia|lia].
Qed.

Lemma enc_total chk first l : node_id first -> Forall node_id l -> forall prev, node_id prev ->
  exists b, enc_loop chk first prev l = Ret b /\ Forall byte b.
Proof.
  intros Hfirst HF. induction HF as [|n l Hn _ IH]; intros prev Hp; [exists []; split; [reflexivity|constructor]|].
  cbn [enc_loop]. rewrite !as_i64_node by assumption. rewrite arith_i64_ok by (unfold in_i64, node_id in *; lia). cbn [obind].
  destruct (IH n Hn) as (b & -> & Hb). cbn [obind]. eexists. split; [reflexivity|]. apply Forall_app. split; [|exact Hb].
  destruct (n =? first); [repeat constructor; unfold byte; lia|]. destruct (n - prev =? 0); [repeat constructor; unfold byte; lia|].
  destruct (_ && _); [constructor; [unfold byte; Z.div_mod_to_equations; lia|constructor]|].
  constructor; [unfold byte; lia|]. apply be64_bytes. unfold node_id in Hn. lia.
Qed.

(** The encoding of a node that is not a repetition does not begin with 0. *)
Lemma enc_first chk first prev l b x r : node_id first -> Forall node_id l -> node_id prev -> no_repeat prev l ->
  enc_loop chk first prev l = Ret b -> b = x :: r -> x <> 0.
Proof.
  intros Hf HF Hp Hr E ->. destruct HF as [|n l Hn HF]; [discriminate E|]. cbn [enc_loop no_repeat] in *. destruct Hr as (Hr & _).
  rewrite !as_i64_node in E by assumption. rewrite arith_i64_ok in E by (unfold in_i64, node_id in *; lia). cbn [obind] in E.
  destruct (enc_total chk first l Hf HF n Hn) as (b & Eb & _). rewrite Eb in E. cbn [obind] in E. injection E as E.
  destruct (n =? first); [injection E; lia|]. replace (n - prev =? 0) with false in E by lia.
  destruct ((-126 <? n - prev) && (n - prev <? 125)) eqn:Es; [|injection E; lia]. injection E as E _. subst x. Z.div_mod_to_equations. lia.
Qed.
(** So eight bytes of it are a number of at least 2^56. *)
Lemma rd64_big b x r v q : Forall byte b -> b = x :: r -> x <> 0 -> rd64 b = Some (v, q) -> 2^56 <= v.
Proof.
  intros Hb -> Hx H. inversion Hb as [|? ? Hx' Hr]; subst.
  do 7 (destruct r as [|? r]; [discriminate H|]). cbn [rd64] in H. injection H as <- _.
  repeat match goal with H : Forall byte (_ :: _) |- _ => inversion H; clear H; subst end. unfold byte in *. lia.
Qed.

Lemma loop_exact chk first l : 0 <= first < 2^56 -> Forall (fun n => 0 <= n < 2^56) l ->
  forall prev dlast fuel b, 0 <= prev < 2^56 -> 0 <= dlast < 2^56 -> (dlast = prev \/ prev = first) -> no_repeat prev l ->
  enc_loop chk first prev l = Ret b -> (length b <= fuel)%nat -> dec_loop chk fuel first dlast b = Ret l ->
  survives first (dlast = prev) prev l.
Proof.
  intros Hfi HF. assert (Hfirst : node_id first) by (unfold node_id; lia).
  induction HF as [|n l Hn HF IH]; intros prev dlast fuel b Hpr Hdl Hi Hr E Hl D; [exact I|].
  assert (Hp : node_id prev) by (unfold node_id; lia). assert (Hd : node_id dlast) by (unfold node_id; lia).
  assert (Hn' : node_id n) by (unfold node_id; lia).
  assert (HF' : Forall node_id l) by (eapply Forall_impl; [|exact HF]; unfold node_id; cbn; intros; lia).
  cbn [survives]. cbn [enc_loop no_repeat] in *. destruct Hr as (Hr1 & Hr2).
  rewrite !as_i64_node in E by assumption. rewrite arith_i64_ok in E by (unfold in_i64, node_id in *; lia). cbn [obind] in E.
  destruct (enc_total chk first l Hfirst HF' n Hn') as (b' & Eb & Bb). rewrite Eb in E. cbn [obind] in E. injection E as <-.
  destruct (Z.eqb_spec n first) as [->|Hne].
  - left. split; [reflexivity|]. cbn [app length] in *. destruct fuel as [|fuel]; [lia|]. cbn [dec_loop] in D.
    change (as_i8 129) with (-127) in D. cbn [Z.eqb] in D. change (-127 =? -127) with true in D. cbv iota zeta in D.
    destruct (dec_loop chk fuel first dlast b') as [l'|] eqn:D'; [|discriminate D]. cbn [obind] in D. injection D as ->.
    apply (survives_mono first l (dlast = first)); [intros; destruct Hi; lia|].
    refine (IH first dlast fuel b' Hfi Hdl (or_intror eq_refl) Hr2 Eb _ D'). lia.
  - right. replace (n - prev =? 0) with false in * by lia.
    destruct ((-126 <? n - prev) && (n - prev <? 125)) eqn:Es.
    + right. split; [exact Hne|]. cbn [app length] in *. destruct fuel as [|fuel]; [lia|]. cbn [dec_loop] in D.
      destruct (Z.eq_dec (n - prev) (-1)) as [Hm1|Hm1].
      { exfalso. rewrite Hm1 in D. change ((-1) mod 256) with 255 in D. change (as_i8 255 =? -127) with false in D. change (255 =? 255) with true in D.
        cbv iota zeta in D. destruct (rd64 b') as [[v q]|] eqn:Er; [|discriminate D]. cbn [unwrap obind] in D.
        destruct (dec_loop chk fuel first v q) as [l'|]; [|discriminate D]. cbn [obind] in D. injection D as D _.
        destruct b' as [|x r]; [discriminate Er|].
        pose proof (rd64_big _ x r v q Bb eq_refl (enc_first chk first n l _ x r Hfirst HF' Hn' Hr2 Eb eq_refl) Er). lia. }
      destruct (as_i8_small (n - prev)) as [A1 A2]; [lia|lia|]. rewrite A1 in D.
      replace (n - prev =? -127) with false in D by lia. replace ((n - prev) mod 256 =? 255) with false in D by lia.
      replace (n - prev =? 0) with false in D by lia. rewrite as_i64_node in D by assumption.
      rewrite arith_i64_ok in D by (unfold in_i64, node_id in *; lia). cbn [obind] in D.
      destruct (dec_loop chk fuel first (as_u64 (dlast + (n - prev))) b') as [l'|] eqn:D'; [|discriminate D]. cbn [obind] in D. injection D as D ->.
      assert (S : dlast = prev).
      { unfold as_u64 in D. unfold node_id in *. destruct (Z_lt_le_dec (dlast + (n - prev)) 0).
        - exfalso. rewrite <- (Z.mod_unique (dlast + (n - prev)) (2^64) (-1) (dlast + (n - prev) + 2^64)) in D; lia.
        - rewrite Z.mod_small in D; lia. }
      split; [exact S|]. split; [lia|]. rewrite D in D'.
      apply (survives_mono first l (n = n)); [easy|]. refine (IH n n fuel b' Hn Hn (or_introl eq_refl) Hr2 Eb _ D'). lia.
    + left. split; [exact Hne|]. split; [unfold far; lia|]. cbn [app length] in Hl. rewrite app_length in Hl. cbn [length be64] in Hl.
      destruct fuel as [|fuel]; [lia|]. cbn [app dec_loop] in D.
      change (as_i8 255 =? -127) with false in D. change (255 =? 255) with true in D. cbv iota zeta in D.
      rewrite rd64_be64 in D by (unfold in_u64; lia). cbn [unwrap obind] in D.
      destruct (dec_loop chk fuel first n b') as [l'|] eqn:D'; [|discriminate D]. cbn [obind] in D. injection D as ->.
      apply (survives_mono first l (n = n)); [easy|]. refine (IH n n fuel b' Hn Hn (or_introl eq_refl) Hr2 Eb _ D'). lia.
Qed.

(** For ids below 2^56 (as all that are in use are) and chains that do not repeat a node
    immediately: the chain survives exactly if every id is the first one, or far from
    the one before, or follows in step and is not one less than the one before.  (With
    larger ids, or repetitions, a chain could be misread and still come out right.) *)
Theorem C55_exact : forall chk first l, 0 <= first < 2^56 -> Forall (fun n => 0 <= n < 2^56) l -> no_repeat first l ->
  (chain_round chk (first :: l) = Ret (first :: l) <-> survives first True first l).
Proof.
  intros chk first l Hf HF Hr.
  assert (Hf' : node_id first) by (unfold node_id; lia).
  assert (HF' : Forall node_id l) by (eapply Forall_impl; [|exact HF]; unfold node_id; cbn; intros; lia).
  split; [|now apply C55_chain_partial].
  destruct (enc_total chk first l Hf' HF' first Hf') as (b & Eb & Bb).
  unfold chain_round, enc_chain. rewrite Eb. cbn [obind]. unfold dec_chain.
  change (match be64 first ++ b with [] => Ret [] | _ :: _ => do (first0, r) <- unwrap (rd64 (be64 first ++ b)); do l0 <- dec_loop chk (length r) first0 first0 r; Ret (first0 :: l0) end)
    with (do (first0, r) <- unwrap (rd64 (be64 first ++ b)); do l0 <- dec_loop chk (length r) first0 first0 r; Ret (first0 :: l0)).
  rewrite rd64_be64 by (unfold in_u64; lia). cbn [unwrap obind].
  destruct (dec_loop chk (length b) first first b) as [l'|] eqn:D; [|discriminate]. cbn [obind]. intros H. injection H as ->.
  apply (survives_mono first l (first = first)); [easy|].
  exact (loop_exact chk first l Hf HF first first (length b) b Hf Hf (or_introl eq_refl) Hr Eb (Nat.le_refl _) D).
Qed.
Print Assumptions C55_exact.

Example C55_exact_ex : no_repeat 10 [12; 500; 499; 600] /\ ~ survives 10 True 10 [12; 500; 499; 600] /\
  no_repeat 10 [12; 500; 10; 300; 301] /\ survives 10 True 10 [12; 500; 10; 300; 301].
Proof.
  split; [cbn; lia|]. split.
  - cbn [survives]. unfold far. lia.
  - split; [cbn; lia|]. cbn [survives]. unfold far. intuition lia.
Qed.

(** Why repetitions are left out: this chain steps back by one and comes out right all the
    same, because the bytes after the step happen to spell the id. *)
Example C55_lucky : let n := 57928654030471679 in let l := [n + 1; n; n; n - 51; n - 102; n - 153; n - 204; n - 255; 5; n - 248] in
  Forall (fun n => 0 <= n < 2^56) l /\ ~ no_repeat 5 l /\ ~ survives 5 True 5 l /\ chain_round true (5 :: l) = Ret (5 :: l).
Proof.
  cbv zeta. split; [repeat constructor; lia|]. split; [cbn; intros (_ & _ & H & _); now apply H|]. split; [|vm_compute; reflexivity].
  assert (S : forall P, ~ survives 5 P (57928654030471679 + 1)
    [57928654030471679; 57928654030471679; 57928654030471679 - 51; 57928654030471679 - 102; 57928654030471679 - 153;
     57928654030471679 - 204; 57928654030471679 - 255; 5; 57928654030471679 - 248]).
  { intros P [[H _]|[(_ & H & _)|(_ & _ & H & _)]]; [lia|unfold far in H; lia|lia]. }
  intros [[H _]|[(_ & _ & H)|(_ & _ & _ & H)]]; [lia|exact (S _ H)|exact (S _ H)].
Qed.

(** Why ids from 2^56 on are left out: the same without a repetition. *)
Example C55_lucky_large : let n := 72898724778214143 in let l := [n + 1; n; n + 1; n + 3; n; n + 1; n + 3; n - 1; n + 1; n - 127] in
  Forall node_id l /\ no_repeat 5 l /\ ~ survives 5 True 5 l /\ chain_round true (5 :: l) = Ret (5 :: l).
Proof.
  cbv zeta. split; [repeat constructor; lia|]. split; [cbn [no_repeat]; lia|]. split; [|vm_compute; reflexivity].
  assert (S : forall P l, ~ survives 5 P (72898724778214143 + 1) (72898724778214143 :: l)).
  { intros P l [[H _]|[(_ & H & _)|(_ & _ & H & _)]]; [lia|unfold far in H; lia|lia]. }
  intros [[H _]|[(_ & _ & H)|(_ & _ & _ & H)]]; [lia|exact (S _ _ H)|exact (S _ _ H)].
Qed.
