(** C55: node chains. *)
From Coq Require Import ZArith List Bool Lia.
From Coq Require Import ZifyBool ZifyNat.
From Verif Require Import Base NodeChain.
Import ListNotations.
Open Scope Z_scope.

(** ** Specification *)

(** Node ids: positive i64 values. *)
Definition node_id (n : Z) : Prop := 0 <= n < 2^63.
(** Two ids so far apart that the second is written in full. *)
Definition far (a b : Z) : Prop := b - a <= -126 \/ 125 <= b - a.

(** The chains that survive.  [prev] is the id before; [insync] says that no
    return to the first id has happened since an id was last written in full
    (or that the return was immediate). *)
Fixpoint survives (first : Z) (insync : Prop) (prev : Z) (l : list Z) : Prop :=
  match l with
  | [] => True
  | n :: r =>
      (n = first /\ survives first (insync /\ prev = first) n r)
      \/ (n <> first /\ far prev n /\ survives first True n r)
      \/ (n <> first /\ insync /\ n <> prev - 1 /\ survives first True n r)
  end.

(** ** Proof *)

Lemma rd64_be64 v r : in_u64 v -> rd64 (be64 v ++ r) = Some (v, r).
Proof.
  intros H. unfold be64. cbn [app rd64]. f_equal. f_equal. unfold in_u64 in H.
  change (2^56) with 72057594037927936. change (2^48) with 281474976710656. change (2^40) with 1099511627776.
  change (2^32) with 4294967296. change (2^24) with 16777216. change (2^16) with 65536. change (2^8) with 256.
  assert (D : forall a b, 0 < b -> v / (a * b) = (v / a) / b \/ a <= 0).
  { intros a b Hb. destruct (Z_lt_le_dec 0 a); [|now right]. left. symmetry. apply Z.div_div; lia. }
  assert (E : forall w, (w / 256) * 256 + w mod 256 = w) by (intros w; Z.div_mod_to_equations; lia).
  replace (v / 72057594037927936) with (v / 281474976710656 / 256) by (rewrite Z.div_div; [f_equal|lia|lia]).
  rewrite (E (v / 281474976710656)).
  replace (v / 281474976710656) with (v / 1099511627776 / 256) by (rewrite Z.div_div; [f_equal|lia|lia]).
  rewrite (E (v / 1099511627776)).
  replace (v / 1099511627776) with (v / 4294967296 / 256) by (rewrite Z.div_div; [f_equal|lia|lia]).
  rewrite (E (v / 4294967296)).
  replace (v / 4294967296) with (v / 16777216 / 256) by (rewrite Z.div_div; [f_equal|lia|lia]).
  rewrite (E (v / 16777216)).
  replace (v / 16777216) with (v / 65536 / 256) by (rewrite Z.div_div; [f_equal|lia|lia]).
  rewrite (E (v / 65536)).
  replace (v / 65536) with (v / 256 / 256) by (rewrite Z.div_div; [f_equal|lia|lia]).
  rewrite (E (v / 256)). apply E.
Qed.

Lemma as_i64_node n : node_id n -> as_i64 n = n.
Proof. unfold node_id. intros H. apply as_i64_id. unfold in_i64. lia. Qed.

(** The bytes of a small offset are read back. *)
Lemma as_i8_small o : -126 < o < 125 -> o <> -1 ->
  as_i8 (o mod 256) = o /\ o mod 256 <> 255.
Proof.
  intros H Hn. unfold as_i8. split.
  - rewrite Zplus_mod_idemp_l. rewrite Z.mod_small; lia.
  - Z.div_mod_to_equations. lia.
Qed.

Lemma loop_survives chk first l : node_id first -> Forall node_id l ->
  forall (insync : Prop) prev dlast fuel, node_id prev -> node_id dlast -> (insync -> dlast = prev) ->
  survives first insync prev l ->
  exists b, enc_loop chk first prev l = Ret b
    /\ ((length b <= fuel)%nat -> dec_loop chk fuel first dlast b = Ret l).
Proof.
  intros Hfirst HF. induction HF as [|n l Hn HF IH]; intros insync prev dlast fuel Hprev Hd Hs H.
  - exists []. split; [reflexivity|]. intros _. now destruct fuel.
  - cbn [survives] in H. cbn [enc_loop]. rewrite !as_i64_node by assumption.
    rewrite arith_i64_ok by (unfold in_i64, node_id in *; lia). cbn [obind].
    destruct H as [[-> H]|[(Hne & Hfar & H)|(Hne & Hin & Hm1 & H)]].
    + destruct (IH (insync /\ prev = first) first dlast (Nat.pred fuel) Hn Hd ltac:(intros [A B0]; rewrite Hs by exact A; exact B0) H) as (b & Eb & Db).
      rewrite Eb. cbn [obind]. rewrite Z.eqb_refl. eexists. split; [reflexivity|]. intros Hl.
      cbn [app length] in *. destruct fuel as [|fuel]; [lia|]. cbn [Nat.pred] in *.
      cbn [dec_loop]. change (as_i8 129) with (-127). cbn [Z.eqb]. rewrite Db by lia. reflexivity.
    + destruct (IH True n n (Nat.pred fuel) Hn Hn ltac:(easy) H) as (b & Eb & Db).
      rewrite Eb. cbn [obind]. replace (n =? first) with false by lia.
      unfold far in Hfar. replace (n - prev =? 0) with false by lia.
      replace ((-126 <? n - prev) && (n - prev <? 125)) with false by lia.
      eexists. split; [reflexivity|]. intros Hl.
      cbn [app length] in Hl. rewrite app_length in Hl. cbn [length be64] in Hl.
      destruct fuel as [|fuel]; [lia|]. cbn [Nat.pred] in *. cbn [app dec_loop].
      change (as_i8 255 =? -127) with false. change (255 =? 255) with true. cbv iota zeta.
      rewrite rd64_be64 by (unfold in_u64, node_id in *; lia). cbn [unwrap obind]. rewrite Db by lia. reflexivity.
    + specialize (Hs Hin). subst dlast.
      destruct (IH True n n (Nat.pred fuel) Hn Hn ltac:(easy) H) as (b & Eb & Db).
      rewrite Eb. cbn [obind]. replace (n =? first) with false by lia.
      destruct (n - prev =? 0) eqn:E0.
      * assert (n = prev) by lia. subst n. eexists. split; [reflexivity|]. intros Hl.
        cbn [app length] in *. destruct fuel as [|fuel]; [lia|]. cbn [Nat.pred] in *. cbn [dec_loop].
        change (as_i8 0) with 0. change (0 =? -127) with false. change (0 =? 255) with false.
        change (0 =? 0) with true. cbv iota zeta. rewrite Db by lia. reflexivity.
      * destruct ((-126 <? n - prev) && (n - prev <? 125)) eqn:Es.
        -- destruct (as_i8_small (n - prev)) as [A1 A2]; [lia|lia|].
           eexists. split; [reflexivity|]. intros Hl. cbn [app length] in *.
           destruct fuel as [|fuel]; [lia|]. cbn [Nat.pred] in *. cbn [dec_loop]. rewrite A1.
           replace (n - prev =? -127) with false by lia. replace ((n - prev) mod 256 =? 255) with false by lia.
           rewrite E0. rewrite as_i64_node by assumption.
           replace (prev + (n - prev)) with n by lia.
           rewrite arith_i64_ok by (unfold in_i64, node_id in *; lia). cbn [obind].
           rewrite as_u64_id by (unfold in_u64, node_id in *; lia). rewrite Db by lia. reflexivity.
        -- eexists. split; [reflexivity|]. intros Hl.
           cbn [app length] in Hl. rewrite app_length in Hl. cbn [length be64] in Hl.
           destruct fuel as [|fuel]; [lia|]. cbn [Nat.pred] in *. cbn [app dec_loop].
           change (as_i8 255 =? -127) with false. change (255 =? 255) with true. cbv iota zeta.
           rewrite rd64_be64 by (unfold in_u64, node_id in *; lia). cbn [unwrap obind]. rewrite Db by lia. reflexivity.
Qed.

(** ** C55 *)

(** Full statement: every list of node ids survives.  Proved for the chains in
    which no id is one less than the id before (unless it is the first id), and
    in which an id written as a difference does not follow a return to the first
    id. *)
Theorem C55_chain_partial : forall chk first l, node_id first -> Forall node_id l ->
  survives first True first l -> chain_round chk (first :: l) = Ret (first :: l).
Proof.
  intros chk first l Hf HF H. unfold chain_round, enc_chain.
  destruct (loop_survives chk first l Hf HF True first first (length (match enc_loop chk first first l with Ret b => b | Panic => [] end)) Hf Hf ltac:(easy) H)
    as (b & Eb & Db). rewrite Eb in *. cbn [obind]. unfold dec_chain.
  change (match be64 first ++ b with [] => Ret [] | _ :: _ => do (first0, r) <- unwrap (rd64 (be64 first ++ b)); do l0 <- dec_loop chk (length r) first0 first0 r; Ret (first0 :: l0) end)
    with (do (first0, r) <- unwrap (rd64 (be64 first ++ b)); do l0 <- dec_loop chk (length r) first0 first0 r; Ret (first0 :: l0)).
  rewrite rd64_be64 by (unfold in_u64, node_id in *; lia). cbn [unwrap obind].
  rewrite Db by lia. reflexivity.
Qed.
Print Assumptions C55_chain_partial.

Theorem C55_empty : forall chk, chain_round chk [] = Ret [].
Proof. reflexivity. Qed.
Print Assumptions C55_empty.

(** An id one less than the one before cannot be read back: its byte is the mark
    of an id in full. *)
Theorem C55_decrement_refuted : forall chk n, node_id n -> n <> 0 -> chain_round chk [n; n - 1] = Panic.
Proof.
  intros chk n Hn H0. unfold chain_round, enc_chain, enc_loop.
  rewrite !as_i64_node by (unfold node_id in *; lia).
  replace (n - 1 - n) with (-1) by lia. rewrite arith_i64_ok by (unfold in_i64; lia).
  cbn [obind]. replace (n - 1 =? n) with false by lia.
  change ((if -1 =? 0 then [0] else if (-126 <? -1) && (-1 <? 125) then [-1 mod 256] else 255 :: be64 (n - 1)) ++ []) with [255].
  cbn [obind]. unfold dec_chain.
  change (match be64 n ++ [255] with [] => Ret [] | _ :: _ => do (first0, r) <- unwrap (rd64 (be64 n ++ [255])); do l0 <- dec_loop chk (length r) first0 first0 r; Ret (first0 :: l0) end)
    with (do (first0, r) <- unwrap (rd64 (be64 n ++ [255])); do l0 <- dec_loop chk (length r) first0 first0 r; Ret (first0 :: l0)).
  rewrite rd64_be64 by (unfold in_u64, node_id in *; lia). reflexivity.
Qed.
Print Assumptions C55_decrement_refuted.

(** After a return to the first id the next difference is added to the wrong id:
    a ring followed by one more node. *)
Theorem C55_return_refuted : forall chk n d, node_id n -> 0 < d < 100 -> node_id (n + d + 2) ->
  chain_round chk [n; n + d; n; n + 2] <> Ret [n; n + d; n; n + 2].
Proof.
  intros chk n d Hn Hd Hnd H. unfold chain_round, enc_chain, enc_loop in H.
  rewrite !as_i64_node in H by (unfold node_id in *; lia).
  replace (n + d - n) with d in H by lia. replace (n - (n + d)) with (- d) in H by lia.
  replace (n + 2 - n) with 2 in H by lia.
  rewrite !arith_i64_ok in H by (unfold in_i64; lia). cbn [obind] in H.
  rewrite Z.eqb_refl in H. replace (n + d =? n) with false in H by lia. replace (n + 2 =? n) with false in H by lia.
  replace (d =? 0) with false in H by lia. replace ((-126 <? d) && (d <? 125)) with true in H by lia.
  change (2 =? 0) with false in H. change ((-126 <? 2) && (2 <? 125)) with true in H. cbv iota in H.
  change (2 mod 256) with 2 in H. rewrite (Z.mod_small d 256) in H by lia. cbn [app obind] in H.
  unfold dec_chain in H.
  change (match be64 n ++ [d; 129; 2] with [] => Ret [] | _ :: _ => do (first0, r) <- unwrap (rd64 (be64 n ++ [d; 129; 2])); do l0 <- dec_loop chk (length r) first0 first0 r; Ret (first0 :: l0) end)
    with (do (first0, r) <- unwrap (rd64 (be64 n ++ [d; 129; 2])); do l0 <- dec_loop chk (length r) first0 first0 r; Ret (first0 :: l0)) in H.
  rewrite rd64_be64 in H by (unfold in_u64, node_id in *; lia). cbn [unwrap obind length dec_loop] in H.
  assert (E : as_i8 d = d) by (unfold as_i8; rewrite Z.mod_small; lia). rewrite E in H.
  replace (d =? -127) with false in H by lia. replace (d =? 255) with false in H by lia.
  replace (d =? 0) with false in H by lia.
  rewrite as_i64_node in H by (unfold node_id in *; lia).
  rewrite arith_i64_ok in H by (unfold in_i64, node_id in *; lia). cbn [obind] in H.
  rewrite as_u64_id in H by (unfold in_u64, node_id in *; lia).
  change (as_i8 129) with (-127) in H. change (as_i8 2) with 2 in H. cbn [Z.eqb] in H.
  change (2 =? -127) with false in H. change (2 =? 255) with false in H. change (2 =? 0) with false in H. cbv iota zeta in H.
  rewrite as_i64_node in H by (unfold node_id in *; lia).
  rewrite arith_i64_ok in H by (unfold in_i64, node_id in *; lia). cbn [obind] in H.
  rewrite as_u64_id in H by (unfold in_u64, node_id in *; lia). cbn [obind] in H.
  injection H as H. lia.
Qed.
Print Assumptions C55_return_refuted.

Example C55_ex : survives 1 True 1 [2; 3; 1000; 2; 1; 1]
  /\ chain_round true [1; 2; 3; 1000; 2; 1; 1] = Ret [1; 2; 3; 1000; 2; 1; 1]
  /\ chain_round true [10; 9] = Panic
  /\ chain_round true [10; 20; 10; 12] = Ret [10; 20; 10; 22].
Proof.
  split; [|repeat split; vm_compute; reflexivity].
  cbn [survives]. unfold far.
  right; right. split; [lia|]. split; [exact I|]. split; [lia|].
  right; right. split; [lia|]. split; [exact I|]. split; [lia|].
  right; left. split; [lia|]. split; [lia|].
  right; left. split; [lia|]. split; [lia|].
  left. split; [reflexivity|]. left. split; [reflexivity|]. exact I.
Qed.
