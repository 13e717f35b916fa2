(** Property C74: every encoding of a message that the protobuf rules allow parses to
    that message. *)
From Coq Require Import String ZArith List Bool Lia.
From Coq Require Import ZifyBool ZifyNat.
From Verif Require Import Base Utf8 PbWire PbMsg PbMsgFacts PropsPbfFile SpecWire.
Import ListNotations.
Open Scope Z_scope.

(** ** Bytes to fields *)

Lemma base128_nonneg bs : 0 <= base128 bs.
Proof. induction bs as [|b bs IH]; cbn [base128]; [lia|]. pose proof (Z.mod_pos_bound b 128 ltac:(lia)). lia. Qed.

Lemma read_any rt v bs r : varint_of v bs -> v < 2^64 -> read_varint rt (bs ++ r) = Some (v, r).
Proof. intros (H1 & H2 & <-) H3. now apply (proj2 (C32_varints rt)). Qed.

Lemma varint_pos v bs : varint_of v bs -> (1 <= length bs)%nat.
Proof. intros (H & _). destruct bs; [contradiction|cbn; lia]. Qed.

Lemma read_tag_any rt t tb r : 8 <= t < 2^32 -> varint_of t tb -> read_tag rt (tb ++ r) = Some (t, r).
Proof.
  intros Ht H. unfold read_tag. rewrite (read_any rt t tb) by (assumption || lia).
  rewrite (u32_ok rt t ltac:(unfold in_u32; lia) : dec_u32 rt t = Some t).
  replace (t / 8 =? 0) with false by (symmetry; apply Z.eqb_neq; Z.div_mod_to_equations; lia). reflexivity.
Qed.

Scheme field_bytes_mut := Minimality for field_bytes Sort Prop
  with group_bytes_mut := Minimality for group_bytes Sort Prop.

(** A field, with any fuel that a group may need, and the fields of a group. *)
Definition field_read rt (f : field) (bs : bytes) : Prop := 8 <= fst f < 2^32 -> (1 <= length bs)%nat /\ fst f mod 8 <> 4 /\
  forall r, read_field rt (bs ++ r) = Some (f, r) /\
    exists r0, read_tag rt (bs ++ r) = Some (fst f, r0) /\ (length r0 < length (bs ++ r))%nat /\
      forall fuel, (length (bs ++ r) <= fuel + length r)%nat ->
        (if fst f mod 8 =? 3 then skip_group rt fuel r0 else opt_map snd (read_value rt (fst f) r0)) = Some r.

Lemma plain_read rt t w tb vb : varint_of t tb -> t mod 8 <> 3 -> t mod 8 <> 4 -> (forall r, read_value rt t (vb ++ r) = Some (w, r)) -> field_read rt (t, w) (tb ++ vb).
Proof.
  intros H1 H3 H4 H Ht. cbn [fst] in *. pose proof (varint_pos _ _ H1) as L. rewrite app_length. split; [lia|]. split; [exact H4|]. intros r. rewrite <- app_assoc.
  unfold read_field. rewrite (read_tag_any rt t tb) by assumption. replace (t mod 8 =? 3) with false by lia.
  rewrite H. split; [reflexivity|]. exists (vb ++ r). split; [reflexivity|]. rewrite !app_length. split; [lia|]. intros fuel _. now rewrite H.
Qed.

Lemma read_field_both rt : forall f bs, field_bytes f bs -> field_read rt f bs.
Proof.
  apply (field_bytes_mut (field_read rt) (fun gb => (1 <= length gb)%nat /\ forall fuel r, (length gb <= fuel)%nat -> skip_group rt fuel (gb ++ r) = Some r)).
  - intros t v tb vb H1 H2 H3 H4. apply plain_read; [exact H1|lia|lia|]. intros r. unfold read_value. rewrite H2. cbn [Z.eqb].
    rewrite (read_any rt v vb) by (assumption || lia). reflexivity.
  - intros t b tb H1 H2 H3. apply plain_read; [exact H1|lia|lia|]. intros r. unfold read_value. rewrite H2. cbn [Z.eqb Pos.eqb].
    rewrite take_app by lia. reflexivity.
  - intros t b tb lb H1 H2 H3 H4. apply plain_read; [exact H1|lia|lia|]. intros r. unfold read_value. rewrite H2. cbn [Z.eqb Pos.eqb].
    rewrite <- app_assoc. rewrite (read_any rt (Z.of_nat (length b)) lb) by assumption. rewrite (take_app (Z.of_nat (length b))) by reflexivity. reflexivity.
  - intros t b tb H1 H2 H3. apply plain_read; [exact H1|lia|lia|]. intros r. unfold read_value. rewrite H2. cbn [Z.eqb Pos.eqb].
    rewrite take_app by lia. reflexivity.
  - intros t tb gb H1 H2 _ (L & IH) Ht. cbn [fst] in *. pose proof (varint_pos _ _ H1) as L1. rewrite app_length. split; [lia|]. split; [lia|].
    intros r. rewrite <- app_assoc. unfold read_field. rewrite (read_tag_any rt t tb) by assumption. rewrite H2. cbn [Z.eqb Pos.eqb].
    rewrite IH by (rewrite app_length; lia). split; [reflexivity|]. exists (gb ++ r). split; [reflexivity|]. rewrite !app_length. split; [lia|].
    intros fuel Hf. apply IH. lia.
  - intros t tb H1 Ht H2. pose proof (varint_pos _ _ H1) as L1. split; [exact L1|]. intros [|fuel] r Hf; [lia|]. cbn [skip_group].
    rewrite (read_tag_any rt t tb) by assumption. rewrite H2. reflexivity.
  - intros f fb gb Ht _ IHf _ (L & IHg). destruct (IHf Ht) as (Lf & H4 & R). rewrite app_length. split; [lia|]. intros [|fuel] r Hf; [lia|].
    cbn [skip_group]. rewrite <- app_assoc. destruct (R (gb ++ r)) as (_ & r0 & E & _ & V). rewrite E. replace (fst f mod 8 =? 4) with false by lia.
    rewrite V by (rewrite app_length; lia). apply IHg. lia.
Qed.

Lemma read_field_any rt f bs r : 8 <= fst f < 2^32 -> field_bytes f bs -> read_field rt (bs ++ r) = Some (f, r).
Proof. intros Ht H. now apply (read_field_both rt f bs H Ht). Qed.

(** A group with a field and an empty group in it, and a field after it. *)
Example group_example : message_bytes [(75, WGroup); (8, WVar 7)] ([75; 8; 5; 83; 92; 76] ++ [8; 7]).
Proof.
  assert (V : forall v, 0 <= v < 128 -> varint_of v [v]).
  { intros v Hv. split; [cbn; lia|]. split; [cbn; lia|]. cbn. rewrite Z.mod_small by lia. lia. }
  split; [repeat constructor; cbn; lia|]. exists [[75] ++ [8; 5] ++ [83; 92] ++ [76]; [8] ++ [7]]. split; [reflexivity|].
  constructor; [|constructor; [apply fb_var; try apply V; try reflexivity; lia|constructor]].
  apply fb_group; [apply V; lia|reflexivity|]. apply (gb_field (8, WVar 5)); [cbn; lia|apply (fb_var 8 5 [8] [5]); try apply V; try reflexivity; lia|].
  apply (gb_field (83, WGroup)); [cbn; lia| |apply (gb_end 76); [apply V; lia|lia|reflexivity]].
  apply (fb_group 83 [83] [92]); [apply V; lia|reflexivity|]. apply (gb_end 92); [apply V; lia|lia|reflexivity].
Qed.

Lemma fields_any rt fs bs : message_bytes fs bs -> fields rt bs = Some fs.
Proof.
  intros (Ht & parts & -> & F). unfold fields.
  assert (G : forall fuel, (length (concat parts) <= fuel)%nat -> fields_fuel rt fuel (concat parts) = Some fs); [|now apply G].
  induction F as [|f p fs parts H _ IH]; intros fuel Hl; [now destruct fuel|]. inversion Ht as [|x y Ht1 Ht2]; subst. cbn [concat] in *.
  rewrite app_length in Hl.
  assert (L : (1 <= length p)%nat).
  { now apply (read_field_both rt f p H). }
  destruct fuel as [|fuel]; [lia|]. cbn [fields_fuel]. rewrite (read_field_any rt f p _ Ht1 H).
  destruct (p ++ concat parts) as [|b bs] eqn:E; [apply app_eq_nil in E as [-> _]; cbn in L; lia|].
  rewrite IH by (assumption || lia). reflexivity.
Qed.

Lemma merge_any {M} rt (step : M -> field -> option M) m fs bs : message_bytes fs bs -> merge rt step m bs = fold_opt step m fs.
Proof. intros H. unfold merge. now rewrite (fields_any rt fs bs H). Qed.

Lemma packed_any {A} rt (dec : pbrt -> Z -> option A) (val : A -> Z -> Prop) l us bss :
  (forall x u, val x u -> dec rt u = Some x /\ u < 2^64) -> Forall2 val l us -> Forall2 varint_of us bss ->
  packed rt dec (concat bss) = Some l.
Proof.
  intros Hd F1 F2. unfold packed.
  assert (G : forall fuel, (length (concat bss) <= fuel)%nat -> packed_fuel rt (dec rt) fuel (concat bss) = Some l); [|now apply G].
  revert bss F2. induction F1 as [|x u l us Hv _ IH]; intros bss F2 fuel Hl; inversion F2 as [|u' b us' bss' Hb F2' ]; subst; cbn [concat] in *.
  - now destruct fuel.
  - destruct (Hd _ _ Hv) as (D & Hu). pose proof (varint_pos _ _ Hb) as L. rewrite app_length in Hl. destruct fuel as [|fuel]; [lia|].
    cbn [packed_fuel]. rewrite (read_any rt u b) by assumption.
    destruct (b ++ concat bss') as [|c cs] eqn:E; [apply app_eq_nil in E as [-> _]; cbn in L; lia|].
    rewrite D. cbn [opt_bind]. rewrite IH by (assumption || lia). reflexivity.
Qed.

(** ** Scalar values *)

Lemma v_int64 rt x u : int64_v x u -> dec_i64 rt u = Some x /\ u < 2^64.
Proof.
  intros (H1 & H2 & H3). unfold in_i64 in H1. assert (E : u = enc_i64 x).
  { unfold enc_i64, as_u64. destruct (Z.lt_ge_cases x 0) as [N|N]; [rewrite (H3 N)|rewrite (H2 ltac:(lia))].
    - apply Z.mod_unique with (q := -1); lia.
    - symmetry. apply Z.mod_small. lia. }
  rewrite E. split; [now apply i64_ok|]. apply as_u64_range.
Qed.
Lemma v_int32 rt x u : int32_v x u -> dec_i32 rt u = Some x /\ u < 2^64.
Proof.
  intros (H1 & H2 & H3). unfold in_i32 in H1. assert (E : u = enc_i32 x).
  { unfold enc_i32, as_u64. destruct (Z.lt_ge_cases x 0) as [N|N]; [rewrite (H3 N)|rewrite (H2 ltac:(lia))].
    - apply Z.mod_unique with (q := -1); lia.
    - symmetry. apply Z.mod_small. lia. }
  rewrite E. split; [now apply i32_ok|]. apply as_u64_range.
Qed.
Lemma v_uint32 rt x u : uint32_v x u -> dec_u32 rt u = Some x /\ u < 2^64.
Proof. intros (H1 & ->). split; [now apply u32_ok|]. unfold in_u32 in H1. lia. Qed.
Lemma v_zig x u : (0 <= x -> u = 2 * x) -> (x < 0 -> u = - 2 * x - 1) -> u = zigzag x.
Proof. intros H2 H3. unfold zigzag. destruct (0 <=? x) eqn:E; lia. Qed.
Lemma v_sint64 rt x u : sint64_v x u -> dec_s64 rt u = Some x /\ u < 2^64.
Proof.
  intros (H1 & H2 & H3). pose proof (v_zig x u H2 H3) as E. rewrite E. split; [now apply s64_ok|].
  pose proof (zigzag_i64 x H1) as R. unfold in_u64 in R. lia.
Qed.
Lemma v_sint32 rt x u : sint32_v x u -> dec_s32 rt u = Some x /\ u < 2^64.
Proof.
  intros (H1 & H2 & H3). pose proof (v_zig x u H2 H3) as E. rewrite E. split; [now apply s32_ok|].
  pose proof (zigzag_i32 x H1) as R. unfold in_u32 in R. lia.
Qed.
Lemma v_bool rt x u : bool_v x u -> dec_bool rt u = Some x /\ u < 2^64.
Proof.
  intros (H1 & H2). split; [|lia]. unfold dec_bool. f_equal. destruct (u =? 0) eqn:E; destruct x; cbn; try reflexivity; exfalso.
  - destruct H2 as (H2 & _). specialize (H2 eq_refl). lia.
  - destruct H2 as (_ & H2). assert (false = true) by (apply H2; lia). discriminate.
Qed.

(** ** Fields with different numbers commute *)

Definition commutes {M} (step : M -> field -> option M) : Prop :=
  forall a b m, fst a / 8 <> fst b / 8 -> opt_bind (step m a) (fun x => step x b) = opt_bind (step m b) (fun x => step x a).

Ltac tag_cases t :=
  repeat match goal with |- context [t =? ?k] => destruct (Z.eqb_spec t k) as [->|] end.

Ltac commute_tac :=
  intros [t1 w1] [t2 w2] m Hn; cbn [fst] in Hn; destruct m; cbn beta iota zeta;
  tag_cases t1; tag_cases t2; try (exfalso; apply Hn; reflexivity).

Ltac commute_end :=
  cbn beta iota zeta delta [Z.eqb Pos.eqb]; unfold on_len, on_var, opt_map, opt_bind; try reflexivity;
  repeat match goal with
  | |- context [match ?w with WVar _ => _ | WF64 _ => _ | WLen _ => _ | WF32 _ => _ | WGroup => _ end] => destruct w; cbn beta iota zeta; try reflexivity
  end;
  repeat match goal with
  | |- context [match ?e with Some _ => _ | None => _ end] =>
      lazymatch e with context [match _ with Some _ => _ | None => _ end] => fail | _ => destruct e eqn:?; cbn beta iota zeta; try reflexivity end
  end; try congruence.

Lemma cs_commutes rt : commutes (cs_step rt).
Proof. unfold commutes, cs_step. commute_tac; commute_end. Qed.
Lemma bh_commutes rt : commutes (bh_step rt).
Proof. unfold commutes, bh_step. commute_tac; commute_end. Qed.
Lemma info_commutes rt : commutes (info_step rt).
Proof. unfold commutes, info_step. commute_tac; commute_end. Qed.
Lemma pr_commutes rt : commutes (pr_step rt).
Proof. unfold commutes, pr_step. commute_tac; commute_end. Qed.
Lemma bl_commutes rt : commutes (bl_step rt).
Proof. unfold commutes, bl_step. commute_tac; commute_end. Qed.
Lemma st_commutes rt : commutes (st_step rt).
Proof. unfold commutes, st_step. intros [t1 w1] [t2 w2] m Hn; cbn [fst] in Hn. tag_cases t1; tag_cases t2; try (exfalso; apply Hn; reflexivity); commute_end. Qed.
Lemma di_commutes rt : commutes (di_step rt).
Proof. unfold commutes, di_step. commute_tac; commute_end. Qed.
Lemma pn_commutes rt : commutes (pn_step rt).
Proof. unfold commutes, pn_step. commute_tac; commute_end. Qed.
Lemma dn_commutes rt : commutes (dn_step rt).
Proof. unfold commutes, dn_step. commute_tac; commute_end. Qed.
Lemma pw_commutes rt : commutes (pw_step rt).
Proof. unfold commutes, pw_step. commute_tac; commute_end. Qed.
Lemma pg_commutes rt : commutes (pg_step rt).
Proof. unfold commutes, pg_step. commute_tac; commute_end. Qed.
Lemma pb_commutes rt : commutes (pb_step rt).
Proof. unfold commutes, pb_step. commute_tac; commute_end. Qed.

(** The fields with number [n]. *)
Definition numbered (n : Z) (fs : list field) : list field := filter (fun f => fst f / 8 =? n) fs.

(** So the fields can be taken number by number. *)
Lemma fold_one_number {M} (step : M -> field -> option M) n : commutes step -> forall fs m,
  fold_opt step m fs = fold_opt step m (numbered n fs ++ filter (fun f => negb (fst f / 8 =? n)) fs).
Proof.
  intros C.
  assert (S : forall a l r m, Forall (fun f => fst f / 8 = n) l -> fst a / 8 <> n ->
    fold_opt step m (a :: l ++ r) = fold_opt step m (l ++ a :: r)).
  { intros a l r m Hl Ha. revert m. induction Hl as [|b l Hb Hl IH]; intros m; [reflexivity|]. cbn [app].
    transitivity (fold_opt step m (b :: a :: l ++ r)).
    - cbn [fold_opt]. assert (E := C a b m ltac:(congruence)).
      destruct (step m a) as [ma|] eqn:Ea; destruct (step m b) as [mb|] eqn:Eb; cbn [opt_bind] in E |- *; try reflexivity.
      + now rewrite E.
      + now rewrite E.
      + now rewrite <- E.
    - cbn [fold_opt]. destruct (step m b); cbn [opt_bind]; [|reflexivity]. exact (IH m0). }
  induction fs as [|f fs IH]; intros m; [reflexivity|].
  unfold numbered in *. cbn [filter]. destruct (fst f / 8 =? n) eqn:E; cbn [negb].
  - cbn [app fold_opt]. destruct (step m f); cbn [opt_bind]; [apply IH|reflexivity].
  - rewrite <- S; [| |lia].
    + cbn [fold_opt]. destruct (step m f); cbn [opt_bind]; [apply IH|reflexivity].
    + apply Forall_forall. intros x Hx. apply filter_In in Hx as (_ & Hx). lia.
Qed.

Lemma numbered_other n k fs : n <> k -> numbered n (filter (fun f => negb (fst f / 8 =? k)) fs) = numbered n fs.
Proof.
  intros H. unfold numbered. induction fs as [|f fs IH]; [reflexivity|]. cbn [filter].
  destruct (fst f / 8 =? k) eqn:E; cbn [negb filter]; destruct (fst f / 8 =? n) eqn:E2; try (rewrite IH; reflexivity); lia.
Qed.

Lemma fold_by_numbers {M} (step : M -> field -> option M) : commutes step -> forall nums fs m,
  NoDup nums -> (forall u m, unknown nums u -> step m u = Some m) ->
  fold_opt step m fs = fold_opt step m (flat_map (fun n => numbered n fs) nums).
Proof.
  intros C nums fs m Nd U.
  assert (G : forall ns fs m, NoDup ns -> (forall n, In n ns -> In n nums) ->
    (forall f, In f fs -> In (fst f / 8) nums -> In (fst f / 8) ns) ->
    fold_opt step m fs = fold_opt step m (flat_map (fun n => numbered n fs) ns)).
  { induction ns as [|n ns IH]; intros gs m' N Hin Hf; cbn [flat_map].
    - revert m'. induction gs as [|f gs IHg]; intros m'; [reflexivity|]. cbn [fold_opt].
      rewrite U; [|intros Hi; exact (Hf f (or_introl eq_refl) Hi)]. cbn [opt_bind]. rewrite IHg; [reflexivity|].
      intros x Hx. apply Hf. now right.
    - inversion N as [|x y N1 N2]; subst. rewrite (fold_one_number step n C).
      assert (E : flat_map (fun k => numbered k (filter (fun f => negb (fst f / 8 =? n)) gs)) ns = flat_map (fun k => numbered k gs) ns).
      { clear -N1. induction ns as [|k ns IH]; [reflexivity|]. cbn [flat_map]. rewrite numbered_other, IH; [reflexivity| |]; intros H; apply N1; cbn; auto. }
      rewrite <- E. rewrite !fold_opt_app. destruct (fold_opt step m' (numbered n gs)) as [m1|]; cbn [opt_bind]; [|reflexivity].
      apply IH; [exact N2|intros k Hk; apply Hin; now right|].
      intros f Hff Hn. apply filter_In in Hff as (Hff & Hne). destruct (Hf f Hff Hn) as [Heq|Hr]; [lia|exact Hr]. }
  apply G; auto.
Qed.

(** ** Folding over the fields of one number *)

Section Folds.
Context {M : Type} (step : M -> field -> option M) (n : Z).

(** Another wire type changes nothing. *)
Definition others_ignored (ws : list Z) : Prop := forall m t w, t / 8 = n -> ~ In (t mod 8) ws -> step m (t, w) = Some m.
Lemma fold_typed ws fs : others_ignored ws -> forall m, fold_opt step m (numbered n fs) = fold_opt step m (typed n ws fs).
Proof.
  intros H. induction fs as [|[t w] fs IH]; intros m; [reflexivity|]. unfold numbered, typed in *. cbn [filter fst].
  destruct (Z.eqb_spec (t / 8) n) as [E|]; cbn [andb]; [|apply IH].
  destruct (existsb (Z.eqb (t mod 8)) ws) eqn:X.
  - cbn [fold_opt]. destruct (step m (t, w)); cbn [opt_bind]; [apply IH|reflexivity].
  - cbn [fold_opt]. rewrite H; [cbn [opt_bind]; apply IH|exact E|]. intros Hi. assert (existsb (Z.eqb (t mod 8)) ws = true); [|congruence].
    apply existsb_exists. exists (t mod 8). split; [exact Hi|lia].
Qed.

Lemma fold_scalar {A} rt (val : A -> Z -> Prop) (dec : pbrt -> Z -> option A) (set : A -> M -> M) fs o m m' :
  others_ignored [0] ->
  (forall m u, step m (8 * n, WVar u) = on_var (dec rt) (fun x => set x m) (WVar u)) ->
  (forall x u, val x u -> dec rt u = Some x /\ u < 2^64) -> (forall x y m, set x (set y m) = set x m) ->
  scalar n val o fs -> match o with Some x => set x m = m' | None => m = m' end -> fold_opt step m (numbered n fs) = Some m'.
Proof.
  intros Ho; rewrite (fold_typed _ fs Ho); clear Ho. intros Hs Hd Hset H E. destruct o as [x|]; cbn [scalar] in H; [|rewrite H; cbn; now rewrite E].
  destruct H as (pre & u & -> & Hv & Hp). revert m E. induction Hp as [|f pre (y & u' & -> & Hy) _ IH]; intros m E; cbn [app fold_opt].
  - rewrite Hs. cbn [on_var]. rewrite (proj1 (Hd _ _ Hv)). cbn. now rewrite E.
  - rewrite Hs. cbn [on_var]. rewrite (proj1 (Hd _ _ Hy)). cbn [opt_map opt_bind]. apply IH. now rewrite Hset.
Qed.

Lemma fold_blob {A} (val : A -> bytes -> Prop) (dec : bytes -> option A) (set : A -> M -> M) fs o m m' :
  others_ignored [2] ->
  (forall m b, step m (8 * n + 2, WLen b) = on_len dec (fun x => set x m) (WLen b)) ->
  (forall x b, val x b -> dec b = Some x) -> (forall x y m, set x (set y m) = set x m) ->
  blob_field n val o fs -> match o with Some x => set x m = m' | None => m = m' end -> fold_opt step m (numbered n fs) = Some m'.
Proof.
  intros Ho; rewrite (fold_typed _ fs Ho); clear Ho. intros Hs Hd Hset H E. destruct o as [x|]; cbn [blob_field] in H; [|rewrite H; cbn; now rewrite E].
  destruct H as (pre & u & -> & Hv & Hp). revert m E. induction Hp as [|f pre (y & u' & -> & Hy) _ IH]; intros m E; cbn [app fold_opt].
  - rewrite Hs. cbn [on_len]. rewrite (Hd _ _ Hv). cbn. now rewrite E.
  - rewrite Hs. cbn [on_len]. rewrite (Hd _ _ Hy). cbn [opt_map opt_bind]. apply IH. now rewrite Hset.
Qed.

Lemma fold_column {A} rt (val : A -> Z -> Prop) (dec : pbrt -> Z -> option A) (add : list A -> M -> M) fs l m m' :
  others_ignored [0; 2] ->
  (forall m u, step m (8 * n, WVar u) = on_var (dec rt) (fun x => add [x] m) (WVar u)) ->
  (forall m b, step m (8 * n + 2, WLen b) = on_len (packed rt dec) (fun x => add x m) (WLen b)) ->
  (forall x u, val x u -> dec rt u = Some x /\ u < 2^64) ->
  (forall x y m, add y (add x m) = add (x ++ y) m) -> (forall m, add [] m = m) ->
  repeated n val l fs -> add l m = m' -> fold_opt step m (numbered n fs) = Some m'.
Proof.
  intros Ho; rewrite (fold_typed _ fs Ho); clear Ho. intros H1 H2 Hd Hadd H0 H E. unfold repeated in H. revert m E. induction H as [|x u l gs Hv _ IH|l1 us bss l gs F1 F2 _ IH]; intros m E; cbn [fold_opt].
  - now rewrite <- E, H0.
  - rewrite H1. cbn [on_var]. rewrite (proj1 (Hd _ _ Hv)). cbn [opt_map opt_bind]. apply IH. now rewrite Hadd.
  - rewrite H2. cbn [on_len]. rewrite (packed_any rt dec val l1 us bss Hd F1 F2). cbn [opt_map opt_bind]. apply IH. now rewrite Hadd.
Qed.

Lemma fold_sub {S} rt (sub : S -> field -> option S) (d : S) (enc : S -> list field -> Prop) (get : M -> option S) (set : S -> M -> M) fs o m m' :
  others_ignored [2] ->
  (forall m b, step m (8 * n + 2, WLen b) = on_len (merge_opt rt sub d (get m)) (fun x => set x m) (WLen b)) ->
  (forall x m, get (set x m) = Some x) -> (forall x y m, set x (set y m) = set x m) ->
  (forall x gs, enc x gs -> fold_opt sub d gs = Some x) -> get m = None ->
  submessage n enc o fs -> match o with Some x => set x m = m' | None => m = m' end -> fold_opt step m (numbered n fs) = Some m'.
Proof.
  intros Ho; rewrite (fold_typed _ fs Ho); clear Ho. intros Hs Hg Hset Henc H0 H E. destruct o as [x|]; cbn [submessage] in H; [|rewrite H; cbn; now rewrite E].
  destruct H as (parts & bss & Hne & F & -> & Hx). apply Henc in Hx.
  destruct F as [|p b parts bss Hb F]; [contradiction|]. cbn [map fold_opt concat] in *. rewrite Hs, H0. cbn [on_len]. unfold merge_opt at 1. cbn [unwrap_or].
  rewrite (merge_any rt sub d p b Hb). rewrite fold_opt_app in Hx. destruct (fold_opt sub d p) as [s|]; [|discriminate]. cbn [opt_map opt_bind] in *.
  clear H0 Hb Hne p b. revert s Hx. induction F as [|p b parts bss Hb _ IH]; intros s Hx; cbn [map fold_opt concat] in *.
  - injection Hx as ->. now rewrite E.
  - rewrite Hs, Hg. cbn [on_len]. unfold merge_opt at 1. cbn [unwrap_or]. rewrite (merge_any rt sub s p b Hb).
    rewrite fold_opt_app in Hx. destruct (fold_opt sub s p) as [s'|]; [|discriminate]. cbn [opt_map opt_bind] in *. rewrite Hset. now apply IH.
Qed.

Lemma fold_reps {S} rt (sub : S -> field -> option S) (d : S) (enc : S -> list field -> Prop) (add : list S -> M -> M) fs l m m' :
  others_ignored [2] ->
  (forall m b, step m (8 * n + 2, WLen b) = on_len (merge rt sub d) (fun x => add [x] m) (WLen b)) ->
  (forall x y m, add y (add x m) = add (x ++ y) m) -> (forall m, add [] m = m) ->
  (forall x gs, enc x gs -> fold_opt sub d gs = Some x) ->
  repeated_message n enc l fs -> add l m = m' -> fold_opt step m (numbered n fs) = Some m'.
Proof.
  intros Ho; rewrite (fold_typed _ fs Ho); clear Ho. intros Hs Hadd H0 Henc (bss & -> & F) E. revert m E. induction F as [|x b l bss (p & Hb & Hx) _ IH]; intros m E; cbn [map fold_opt].
  - now rewrite <- E, H0.
  - rewrite Hs. cbn [on_len]. rewrite (merge_any rt sub d p b Hb), (Henc _ _ Hx). cbn [opt_map opt_bind]. apply IH. now rewrite Hadd.
Qed.
End Folds.

(** ** The messages *)

Ltac nodup := repeat constructor; cbn; intuition discriminate.
Ltac unk rt := let u := fresh in let m := fresh in let U := fresh in intros u m U; apply (unknown_steps rt _ u U); reflexivity.

Ltac oth :=
  let m := fresh in let t := fresh in let w := fresh in let Hn := fresh in let Hw := fresh in
  intros m t w Hn Hw; destruct m;
  unfold bh_step, bl_step, st_step, info_step, di_step, cs_step, pn_step, dn_step, pw_step, pr_step, pg_step, pb_step;
  tag_cases t; try reflexivity; exfalso; first [discriminate Hn | apply Hw; cbn; tauto].

(** Every encoding of a message, merged into a new message, is that message. *)
Lemma cs_any rt m fs : change_set_enc m fs -> fold_opt (cs_step rt) None fs = Some m.
Proof.
  intros H. rewrite (fold_by_numbers (cs_step rt) (cs_commutes rt) change_set_nums); [|nodup|unk rt].
  cbn [change_set_nums flat_map]. rewrite app_nil_r.
  eapply (fold_scalar _ 1 rt int64_v dec_i64 (fun x _ => Some x)); [oth|reflexivity|apply v_int64|reflexivity|exact H|destruct m; reflexivity].
Qed.
Lemma st_any rt m fs : strings_enc m fs -> fold_opt (st_step rt) [] fs = Some m.
Proof.
  intros H. rewrite (fold_by_numbers (st_step rt) (st_commutes rt) strings_nums); [|nodup|unk rt].
  cbn [strings_nums flat_map]. rewrite app_nil_r. unfold strings_enc, repeated_bytes in H. rewrite (fold_typed _ 1 [2]) by oth. rewrite H. clear H.
  change m with ([] ++ m) at 2. generalize (@nil bytes). induction m as [|b m IH]; intros acc; cbn [map fold_opt].
  - now rewrite app_nil_r.
  - change (st_step rt acc (8 * 1 + 2, WLen b)) with (Some (acc ++ [b])). cbn [opt_bind]. rewrite IH. now rewrite <- app_assoc.
Qed.
Lemma info_any rt m fs : info_enc m fs -> fold_opt (info_step rt) info0 fs = Some m.
Proof.
  intros (H0 & H1 & H2 & H3 & H4 & H5). rewrite (fold_by_numbers (info_step rt) (info_commutes rt) info_nums); [|nodup|unk rt].
  cbn [info_nums flat_map]. rewrite app_nil_r. destruct m as [x0 x1 x2 x3 x4 x5]. cbn [i_version i_timestamp i_changeset i_uid i_user_sid i_visible] in *.
  eapply fold_seq; [eapply (fold_scalar _ 1 rt int32_v dec_i32 (fun x m => Info (Some x) (i_timestamp m) (i_changeset m) (i_uid m) (i_user_sid m) (i_visible m))) with (m' := Info x0 None None None None None); [oth|intros []; reflexivity|apply v_int32|reflexivity|exact H0|destruct x0; reflexivity]|].
  eapply fold_seq; [eapply (fold_scalar _ 2 rt int64_v dec_i64 (fun x m => Info (i_version m) (Some x) (i_changeset m) (i_uid m) (i_user_sid m) (i_visible m))) with (m' := Info x0 x1 None None None None); [oth|intros []; reflexivity|apply v_int64|reflexivity|exact H1|destruct x1; reflexivity]|].
  eapply fold_seq; [eapply (fold_scalar _ 3 rt int64_v dec_i64 (fun x m => Info (i_version m) (i_timestamp m) (Some x) (i_uid m) (i_user_sid m) (i_visible m))) with (m' := Info x0 x1 x2 None None None); [oth|intros []; reflexivity|apply v_int64|reflexivity|exact H2|destruct x2; reflexivity]|].
  eapply fold_seq; [eapply (fold_scalar _ 4 rt int32_v dec_i32 (fun x m => Info (i_version m) (i_timestamp m) (i_changeset m) (Some x) (i_user_sid m) (i_visible m))) with (m' := Info x0 x1 x2 x3 None None); [oth|intros []; reflexivity|apply v_int32|reflexivity|exact H3|destruct x3; reflexivity]|].
  eapply fold_seq; [eapply (fold_scalar _ 5 rt uint32_v dec_u32 (fun x m => Info (i_version m) (i_timestamp m) (i_changeset m) (i_uid m) (Some x) (i_visible m))) with (m' := Info x0 x1 x2 x3 x4 None); [oth|intros []; reflexivity|apply v_uint32|reflexivity|exact H4|destruct x4; reflexivity]|].
  eapply (fold_scalar _ 6 rt bool_v dec_bool (fun x m => Info (i_version m) (i_timestamp m) (i_changeset m) (i_uid m) (i_user_sid m) (Some x))) with (m' := Info x0 x1 x2 x3 x4 x5); [oth|intros []; reflexivity|apply v_bool|reflexivity|exact H5|destruct x5; reflexivity].
Qed.
Lemma di_any rt m fs : dense_info_enc m fs -> fold_opt (di_step rt) di0 fs = Some m.
Proof.
  intros (H0 & H1 & H2 & H3 & H4 & H5). rewrite (fold_by_numbers (di_step rt) (di_commutes rt) dense_info_nums); [|nodup|unk rt].
  cbn [dense_info_nums flat_map]. rewrite app_nil_r. destruct m as [x0 x1 x2 x3 x4 x5]. cbn [di_version di_timestamp di_changeset di_uid di_user_sid di_visible] in *.
  eapply fold_seq; [eapply (fold_column _ 1 rt int32_v dec_i32 (fun x m => DenseInfo (di_version m ++ x) (di_timestamp m) (di_changeset m) (di_uid m) (di_user_sid m) (di_visible m))) with (m' := DenseInfo x0 [] [] [] [] []);
      [oth|intros []; reflexivity|intros []; reflexivity|apply v_int32|intros x y []; cbn; now rewrite app_assoc|intros []; cbn; now rewrite app_nil_r|exact H0|reflexivity]|].
  eapply fold_seq; [eapply (fold_column _ 2 rt sint64_v dec_s64 (fun x m => DenseInfo (di_version m) (di_timestamp m ++ x) (di_changeset m) (di_uid m) (di_user_sid m) (di_visible m))) with (m' := DenseInfo x0 x1 [] [] [] []);
      [oth|intros []; reflexivity|intros []; reflexivity|apply v_sint64|intros x y []; cbn; now rewrite app_assoc|intros []; cbn; now rewrite app_nil_r|exact H1|reflexivity]|].
  eapply fold_seq; [eapply (fold_column _ 3 rt sint64_v dec_s64 (fun x m => DenseInfo (di_version m) (di_timestamp m) (di_changeset m ++ x) (di_uid m) (di_user_sid m) (di_visible m))) with (m' := DenseInfo x0 x1 x2 [] [] []);
      [oth|intros []; reflexivity|intros []; reflexivity|apply v_sint64|intros x y []; cbn; now rewrite app_assoc|intros []; cbn; now rewrite app_nil_r|exact H2|reflexivity]|].
  eapply fold_seq; [eapply (fold_column _ 4 rt sint32_v dec_s32 (fun x m => DenseInfo (di_version m) (di_timestamp m) (di_changeset m) (di_uid m ++ x) (di_user_sid m) (di_visible m))) with (m' := DenseInfo x0 x1 x2 x3 [] []);
      [oth|intros []; reflexivity|intros []; reflexivity|apply v_sint32|intros x y []; cbn; now rewrite app_assoc|intros []; cbn; now rewrite app_nil_r|exact H3|reflexivity]|].
  eapply fold_seq; [eapply (fold_column _ 5 rt sint32_v dec_s32 (fun x m => DenseInfo (di_version m) (di_timestamp m) (di_changeset m) (di_uid m) (di_user_sid m ++ x) (di_visible m))) with (m' := DenseInfo x0 x1 x2 x3 x4 []);
      [oth|intros []; reflexivity|intros []; reflexivity|apply v_sint32|intros x y []; cbn; now rewrite app_assoc|intros []; cbn; now rewrite app_nil_r|exact H4|reflexivity]|].
  eapply (fold_column _ 6 rt bool_v dec_bool (fun x m => DenseInfo (di_version m) (di_timestamp m) (di_changeset m) (di_uid m) (di_user_sid m) (di_visible m ++ x))) with (m' := DenseInfo x0 x1 x2 x3 x4 x5);
      [oth|intros []; reflexivity|intros []; reflexivity|apply v_bool|intros x y []; cbn; now rewrite app_assoc|intros []; cbn; now rewrite app_nil_r|exact H5|reflexivity].
Qed.
Lemma pn_any rt m fs : node_enc m fs -> fold_opt (pn_step rt) pn0 fs = Some m.
Proof.
  intros (H0 & H1 & H2 & H3 & H4 & H5). rewrite (fold_by_numbers (pn_step rt) (pn_commutes rt) node_nums); [|nodup|unk rt].
  cbn [node_nums flat_map]. rewrite app_nil_r. destruct m as [x0 x1 x2 x3 x4 x5]. cbn [pn_id pn_keys pn_vals pn_info pn_lat pn_lon] in *.
  eapply fold_seq; [eapply (fold_scalar _ 1 rt sint64_v dec_s64 (fun x m => PNode (Some x) (pn_keys m) (pn_vals m) (pn_info m) (pn_lat m) (pn_lon m))) with (m' := PNode x0 [] [] None None None); [oth|intros []; reflexivity|apply v_sint64|reflexivity|exact H0|destruct x0; reflexivity]|].
  eapply fold_seq; [eapply (fold_column _ 2 rt uint32_v dec_u32 (fun x m => PNode (pn_id m) (pn_keys m ++ x) (pn_vals m) (pn_info m) (pn_lat m) (pn_lon m))) with (m' := PNode x0 x1 [] None None None);
      [oth|intros []; reflexivity|intros []; reflexivity|apply v_uint32|intros x y []; cbn; now rewrite app_assoc|intros []; cbn; now rewrite app_nil_r|exact H1|reflexivity]|].
  eapply fold_seq; [eapply (fold_column _ 3 rt uint32_v dec_u32 (fun x m => PNode (pn_id m) (pn_keys m) (pn_vals m ++ x) (pn_info m) (pn_lat m) (pn_lon m))) with (m' := PNode x0 x1 x2 None None None);
      [oth|intros []; reflexivity|intros []; reflexivity|apply v_uint32|intros x y []; cbn; now rewrite app_assoc|intros []; cbn; now rewrite app_nil_r|exact H2|reflexivity]|].
  eapply fold_seq; [eapply (fold_sub _ 4 rt (info_step rt) info0 info_enc pn_info (fun x m => PNode (pn_id m) (pn_keys m) (pn_vals m) (Some x) (pn_lat m) (pn_lon m))) with (m' := PNode x0 x1 x2 x3 None None);
      [oth|intros []; reflexivity|reflexivity|reflexivity|apply info_any|reflexivity|exact H3|destruct x3; reflexivity]|].
  eapply fold_seq; [eapply (fold_scalar _ 8 rt sint64_v dec_s64 (fun x m => PNode (pn_id m) (pn_keys m) (pn_vals m) (pn_info m) (Some x) (pn_lon m))) with (m' := PNode x0 x1 x2 x3 x4 None); [oth|intros []; reflexivity|apply v_sint64|reflexivity|exact H4|destruct x4; reflexivity]|].
  eapply (fold_scalar _ 9 rt sint64_v dec_s64 (fun x m => PNode (pn_id m) (pn_keys m) (pn_vals m) (pn_info m) (pn_lat m) (Some x))) with (m' := PNode x0 x1 x2 x3 x4 x5); [oth|intros []; reflexivity|apply v_sint64|reflexivity|exact H5|destruct x5; reflexivity].
Qed.
Lemma dn_any rt m fs : dense_enc m fs -> fold_opt (dn_step rt) dn0 fs = Some m.
Proof.
  intros (H0 & H1 & H2 & H3 & H4). rewrite (fold_by_numbers (dn_step rt) (dn_commutes rt) dense_nums); [|nodup|unk rt].
  cbn [dense_nums flat_map]. rewrite app_nil_r. destruct m as [x0 x1 x2 x3 x4]. cbn [dn_id dn_info dn_lat dn_lon dn_keys_vals] in *.
  eapply fold_seq; [eapply (fold_column _ 1 rt sint64_v dec_s64 (fun x m => DenseNodes (dn_id m ++ x) (dn_info m) (dn_lat m) (dn_lon m) (dn_keys_vals m))) with (m' := DenseNodes x0 None [] [] []);
      [oth|intros []; reflexivity|intros []; reflexivity|apply v_sint64|intros x y []; cbn; now rewrite app_assoc|intros []; cbn; now rewrite app_nil_r|exact H0|reflexivity]|].
  eapply fold_seq; [eapply (fold_sub _ 5 rt (di_step rt) di0 dense_info_enc dn_info (fun x m => DenseNodes (dn_id m) (Some x) (dn_lat m) (dn_lon m) (dn_keys_vals m))) with (m' := DenseNodes x0 x1 [] [] []);
      [oth|intros []; reflexivity|reflexivity|reflexivity|apply di_any|reflexivity|exact H1|destruct x1; reflexivity]|].
  eapply fold_seq; [eapply (fold_column _ 8 rt sint64_v dec_s64 (fun x m => DenseNodes (dn_id m) (dn_info m) (dn_lat m ++ x) (dn_lon m) (dn_keys_vals m))) with (m' := DenseNodes x0 x1 x2 [] []);
      [oth|intros []; reflexivity|intros []; reflexivity|apply v_sint64|intros x y []; cbn; now rewrite app_assoc|intros []; cbn; now rewrite app_nil_r|exact H2|reflexivity]|].
  eapply fold_seq; [eapply (fold_column _ 9 rt sint64_v dec_s64 (fun x m => DenseNodes (dn_id m) (dn_info m) (dn_lat m) (dn_lon m ++ x) (dn_keys_vals m))) with (m' := DenseNodes x0 x1 x2 x3 []);
      [oth|intros []; reflexivity|intros []; reflexivity|apply v_sint64|intros x y []; cbn; now rewrite app_assoc|intros []; cbn; now rewrite app_nil_r|exact H3|reflexivity]|].
  eapply (fold_column _ 10 rt int32_v dec_i32 (fun x m => DenseNodes (dn_id m) (dn_info m) (dn_lat m) (dn_lon m) (dn_keys_vals m ++ x))) with (m' := DenseNodes x0 x1 x2 x3 x4);
      [oth|intros []; reflexivity|intros []; reflexivity|apply v_int32|intros x y []; cbn; now rewrite app_assoc|intros []; cbn; now rewrite app_nil_r|exact H4|reflexivity].
Qed.
Lemma pw_any rt m fs : way_enc m fs -> fold_opt (pw_step rt) pw0 fs = Some m.
Proof.
  intros (H0 & H1 & H2 & H3 & H4). rewrite (fold_by_numbers (pw_step rt) (pw_commutes rt) way_nums); [|nodup|unk rt].
  cbn [way_nums flat_map]. rewrite app_nil_r. destruct m as [x0 x1 x2 x3 x4]. cbn [pw_id pw_keys pw_vals pw_info pw_refs] in *.
  eapply fold_seq; [eapply (fold_scalar _ 1 rt int64_v dec_i64 (fun x m => PWay (Some x) (pw_keys m) (pw_vals m) (pw_info m) (pw_refs m))) with (m' := PWay x0 [] [] None []); [oth|intros []; reflexivity|apply v_int64|reflexivity|exact H0|destruct x0; reflexivity]|].
  eapply fold_seq; [eapply (fold_column _ 2 rt uint32_v dec_u32 (fun x m => PWay (pw_id m) (pw_keys m ++ x) (pw_vals m) (pw_info m) (pw_refs m))) with (m' := PWay x0 x1 [] None []);
      [oth|intros []; reflexivity|intros []; reflexivity|apply v_uint32|intros x y []; cbn; now rewrite app_assoc|intros []; cbn; now rewrite app_nil_r|exact H1|reflexivity]|].
  eapply fold_seq; [eapply (fold_column _ 3 rt uint32_v dec_u32 (fun x m => PWay (pw_id m) (pw_keys m) (pw_vals m ++ x) (pw_info m) (pw_refs m))) with (m' := PWay x0 x1 x2 None []);
      [oth|intros []; reflexivity|intros []; reflexivity|apply v_uint32|intros x y []; cbn; now rewrite app_assoc|intros []; cbn; now rewrite app_nil_r|exact H2|reflexivity]|].
  eapply fold_seq; [eapply (fold_sub _ 4 rt (info_step rt) info0 info_enc pw_info (fun x m => PWay (pw_id m) (pw_keys m) (pw_vals m) (Some x) (pw_refs m))) with (m' := PWay x0 x1 x2 x3 []);
      [oth|intros []; reflexivity|reflexivity|reflexivity|apply info_any|reflexivity|exact H3|destruct x3; reflexivity]|].
  eapply (fold_column _ 8 rt sint64_v dec_s64 (fun x m => PWay (pw_id m) (pw_keys m) (pw_vals m) (pw_info m) (pw_refs m ++ x))) with (m' := PWay x0 x1 x2 x3 x4);
      [oth|intros []; reflexivity|intros []; reflexivity|apply v_sint64|intros x y []; cbn; now rewrite app_assoc|intros []; cbn; now rewrite app_nil_r|exact H4|reflexivity].
Qed.
Lemma pr_any rt m fs : rel_enc m fs -> fold_opt (pr_step rt) pr0 fs = Some m.
Proof.
  intros (H0 & H1 & H2 & H3 & H4 & H5 & H6). rewrite (fold_by_numbers (pr_step rt) (pr_commutes rt) rel_nums); [|nodup|unk rt].
  cbn [rel_nums flat_map]. rewrite app_nil_r. destruct m as [x0 x1 x2 x3 x4 x5 x6]. cbn [pr_id pr_keys pr_vals pr_info pr_roles pr_memids pr_types] in *.
  eapply fold_seq; [eapply (fold_scalar _ 1 rt int64_v dec_i64 (fun x m => PRel (Some x) (pr_keys m) (pr_vals m) (pr_info m) (pr_roles m) (pr_memids m) (pr_types m))) with (m' := PRel x0 [] [] None [] [] []); [oth|intros []; reflexivity|apply v_int64|reflexivity|exact H0|destruct x0; reflexivity]|].
  eapply fold_seq; [eapply (fold_column _ 2 rt uint32_v dec_u32 (fun x m => PRel (pr_id m) (pr_keys m ++ x) (pr_vals m) (pr_info m) (pr_roles m) (pr_memids m) (pr_types m))) with (m' := PRel x0 x1 [] None [] [] []);
      [oth|intros []; reflexivity|intros []; reflexivity|apply v_uint32|intros x y []; cbn; now rewrite app_assoc|intros []; cbn; now rewrite app_nil_r|exact H1|reflexivity]|].
  eapply fold_seq; [eapply (fold_column _ 3 rt uint32_v dec_u32 (fun x m => PRel (pr_id m) (pr_keys m) (pr_vals m ++ x) (pr_info m) (pr_roles m) (pr_memids m) (pr_types m))) with (m' := PRel x0 x1 x2 None [] [] []);
      [oth|intros []; reflexivity|intros []; reflexivity|apply v_uint32|intros x y []; cbn; now rewrite app_assoc|intros []; cbn; now rewrite app_nil_r|exact H2|reflexivity]|].
  eapply fold_seq; [eapply (fold_sub _ 4 rt (info_step rt) info0 info_enc pr_info (fun x m => PRel (pr_id m) (pr_keys m) (pr_vals m) (Some x) (pr_roles m) (pr_memids m) (pr_types m))) with (m' := PRel x0 x1 x2 x3 [] [] []);
      [oth|intros []; reflexivity|reflexivity|reflexivity|apply info_any|reflexivity|exact H3|destruct x3; reflexivity]|].
  eapply fold_seq; [eapply (fold_column _ 8 rt int32_v dec_i32 (fun x m => PRel (pr_id m) (pr_keys m) (pr_vals m) (pr_info m) (pr_roles m ++ x) (pr_memids m) (pr_types m))) with (m' := PRel x0 x1 x2 x3 x4 [] []);
      [oth|intros []; reflexivity|intros []; reflexivity|apply v_int32|intros x y []; cbn; now rewrite app_assoc|intros []; cbn; now rewrite app_nil_r|exact H4|reflexivity]|].
  eapply fold_seq; [eapply (fold_column _ 9 rt sint64_v dec_s64 (fun x m => PRel (pr_id m) (pr_keys m) (pr_vals m) (pr_info m) (pr_roles m) (pr_memids m ++ x) (pr_types m))) with (m' := PRel x0 x1 x2 x3 x4 x5 []);
      [oth|intros []; reflexivity|intros []; reflexivity|apply v_sint64|intros x y []; cbn; now rewrite app_assoc|intros []; cbn; now rewrite app_nil_r|exact H5|reflexivity]|].
  eapply (fold_column _ 10 rt int32_v dec_i32 (fun x m => PRel (pr_id m) (pr_keys m) (pr_vals m) (pr_info m) (pr_roles m) (pr_memids m) (pr_types m ++ x))) with (m' := PRel x0 x1 x2 x3 x4 x5 x6);
      [oth|intros []; reflexivity|intros []; reflexivity|apply v_int32|intros x y []; cbn; now rewrite app_assoc|intros []; cbn; now rewrite app_nil_r|exact H6|reflexivity].
Qed.
Lemma pg_any rt m fs : group_enc m fs -> fold_opt (pg_step rt) pg0 fs = Some m.
Proof.
  intros (H0 & H1 & H2 & H3 & H4). rewrite (fold_by_numbers (pg_step rt) (pg_commutes rt) group_nums); [|nodup|unk rt].
  cbn [group_nums flat_map]. rewrite app_nil_r. destruct m as [x0 x1 x2 x3 x4]. cbn [pg_nodes pg_dense pg_ways pg_rels pg_changesets] in *.
  eapply fold_seq; [eapply (fold_reps _ 1 rt (pn_step rt) pn0 node_enc (fun x m => PGroup (pg_nodes m ++ x) (pg_dense m) (pg_ways m) (pg_rels m) (pg_changesets m))) with (m' := PGroup x0 None [] [] []);
      [oth|intros []; reflexivity|intros x y []; cbn; now rewrite app_assoc|intros []; cbn; now rewrite app_nil_r|apply pn_any|exact H0|reflexivity]|].
  eapply fold_seq; [eapply (fold_sub _ 2 rt (dn_step rt) dn0 dense_enc pg_dense (fun x m => PGroup (pg_nodes m) (Some x) (pg_ways m) (pg_rels m) (pg_changesets m))) with (m' := PGroup x0 x1 [] [] []);
      [oth|intros []; reflexivity|reflexivity|reflexivity|apply dn_any|reflexivity|exact H1|destruct x1; reflexivity]|].
  eapply fold_seq; [eapply (fold_reps _ 3 rt (pw_step rt) pw0 way_enc (fun x m => PGroup (pg_nodes m) (pg_dense m) (pg_ways m ++ x) (pg_rels m) (pg_changesets m))) with (m' := PGroup x0 x1 x2 [] []);
      [oth|intros []; reflexivity|intros x y []; cbn; now rewrite app_assoc|intros []; cbn; now rewrite app_nil_r|apply pw_any|exact H2|reflexivity]|].
  eapply fold_seq; [eapply (fold_reps _ 4 rt (pr_step rt) pr0 rel_enc (fun x m => PGroup (pg_nodes m) (pg_dense m) (pg_ways m) (pg_rels m ++ x) (pg_changesets m))) with (m' := PGroup x0 x1 x2 x3 []);
      [oth|intros []; reflexivity|intros x y []; cbn; now rewrite app_assoc|intros []; cbn; now rewrite app_nil_r|apply pr_any|exact H3|reflexivity]|].
  eapply (fold_reps _ 5 rt (cs_step rt) None change_set_enc (fun x m => PGroup (pg_nodes m) (pg_dense m) (pg_ways m) (pg_rels m) (pg_changesets m ++ x))) with (m' := PGroup x0 x1 x2 x3 x4);
      [oth|intros []; reflexivity|intros x y []; cbn; now rewrite app_assoc|intros []; cbn; now rewrite app_nil_r|apply cs_any|exact H4|reflexivity].
Qed.
Lemma pb_any rt m fs : block_enc m fs -> fold_opt (pb_step rt) pb0 fs = Some m.
Proof.
  intros (H0 & H1 & H2 & H3 & H4 & H5). rewrite (fold_by_numbers (pb_step rt) (pb_commutes rt) block_nums); [|nodup|unk rt].
  cbn [block_nums flat_map]. rewrite app_nil_r. destruct m as [x0 x1 x2 x3 x4 x5]. cbn [pb_strings pb_groups pb_granularity pb_lat_offset pb_lon_offset pb_date_granularity] in *.
  eapply fold_seq; [eapply (fold_sub _ 1 rt (st_step rt) (@nil bytes) strings_enc pb_strings (fun x m => PBlock (Some x) (pb_groups m) (pb_granularity m) (pb_lat_offset m) (pb_lon_offset m) (pb_date_granularity m))) with (m' := PBlock x0 [] None None None None);
      [oth|intros []; reflexivity|reflexivity|reflexivity|apply st_any|reflexivity|exact H0|destruct x0; reflexivity]|].
  eapply fold_seq; [eapply (fold_reps _ 2 rt (pg_step rt) pg0 group_enc (fun x m => PBlock (pb_strings m) (pb_groups m ++ x) (pb_granularity m) (pb_lat_offset m) (pb_lon_offset m) (pb_date_granularity m))) with (m' := PBlock x0 x1 None None None None);
      [oth|intros []; reflexivity|intros x y []; cbn; now rewrite app_assoc|intros []; cbn; now rewrite app_nil_r|apply pg_any|exact H1|reflexivity]|].
  eapply fold_seq; [eapply (fold_scalar _ 17 rt int32_v dec_i32 (fun x m => PBlock (pb_strings m) (pb_groups m) (Some x) (pb_lat_offset m) (pb_lon_offset m) (pb_date_granularity m))) with (m' := PBlock x0 x1 x2 None None None); [oth|intros []; reflexivity|apply v_int32|reflexivity|exact H2|destruct x2; reflexivity]|].
  eapply fold_seq; [eapply (fold_scalar _ 18 rt int32_v dec_i32 (fun x m => PBlock (pb_strings m) (pb_groups m) (pb_granularity m) (pb_lat_offset m) (pb_lon_offset m) (Some x))) with (m' := PBlock x0 x1 x2 None None x5); [oth|intros []; reflexivity|apply v_int32|reflexivity|exact H3|destruct x5; reflexivity]|].
  eapply fold_seq; [eapply (fold_scalar _ 19 rt int64_v dec_i64 (fun x m => PBlock (pb_strings m) (pb_groups m) (pb_granularity m) (Some x) (pb_lon_offset m) (pb_date_granularity m))) with (m' := PBlock x0 x1 x2 x3 None x5); [oth|intros []; reflexivity|apply v_int64|reflexivity|exact H4|destruct x3; reflexivity]|].
  eapply (fold_scalar _ 20 rt int64_v dec_i64 (fun x m => PBlock (pb_strings m) (pb_groups m) (pb_granularity m) (pb_lat_offset m) (Some x) (pb_date_granularity m))) with (m' := PBlock x0 x1 x2 x3 x4 x5); [oth|intros []; reflexivity|apply v_int64|reflexivity|exact H5|destruct x4; reflexivity].
Qed.
Lemma bh_any rt m fs : header_enc m fs -> fold_opt (bh_step rt) bh0 fs = Some m.
Proof.
  intros (H0 & H1 & H2). rewrite (fold_by_numbers (bh_step rt) (bh_commutes rt) header_nums); [|nodup|unk rt].
  cbn [header_nums flat_map]. rewrite app_nil_r. destruct m as [x0 x1 x2]. cbn [bh_type bh_index bh_datasize] in *.
  eapply fold_seq; [eapply (fold_blob _ 1 (fun s b => valid_str s /\ b = utf8 s) utf8_decode (fun x m => BlobHeader (Some x) (bh_index m) (bh_datasize m))) with (m' := BlobHeader x0 None None); [oth|intros []; reflexivity|intros x b (Hx & ->); now apply utf8_decode_encode|reflexivity|exact H0|destruct x0; reflexivity]|].
  eapply fold_seq; [eapply (fold_blob _ 2 eq Some (fun x m => BlobHeader (bh_type m) (Some x) (bh_datasize m))) with (m' := BlobHeader x0 x1 None); [oth|intros []; reflexivity|now intros x b ->|reflexivity|exact H1|destruct x1; reflexivity]|].
  eapply (fold_scalar _ 3 rt int32_v dec_i32 (fun x m => BlobHeader (bh_type m) (bh_index m) (Some x))) with (m' := BlobHeader x0 x1 x2); [oth|intros []; reflexivity|apply v_int32|reflexivity|exact H2|destruct x2; reflexivity].
Qed.
Lemma bl_any rt m fs : blob_enc m fs -> fold_opt (bl_step rt) bl0 fs = Some m.
Proof.
  intros (H0 & H1 & H2 & H3 & H4). rewrite (fold_by_numbers (bl_step rt) (bl_commutes rt) blob_nums); [|nodup|unk rt].
  cbn [blob_nums flat_map]. rewrite app_nil_r. destruct m as [x0 x1 x2 x3 x4]. cbn [bl_raw bl_raw_size bl_zlib bl_lzma bl_bzip2] in *.
  eapply fold_seq; [eapply (fold_blob _ 1 eq Some (fun x m => Blob (Some x) (bl_raw_size m) (bl_zlib m) (bl_lzma m) (bl_bzip2 m))) with (m' := Blob x0 None None None None); [oth|intros []; reflexivity|now intros x b ->|reflexivity|exact H0|destruct x0; reflexivity]|].
  eapply fold_seq; [eapply (fold_scalar _ 2 rt int32_v dec_i32 (fun x m => Blob (bl_raw m) (Some x) (bl_zlib m) (bl_lzma m) (bl_bzip2 m))) with (m' := Blob x0 x1 None None None); [oth|intros []; reflexivity|apply v_int32|reflexivity|exact H1|destruct x1; reflexivity]|].
  eapply fold_seq; [eapply (fold_blob _ 3 eq Some (fun x m => Blob (bl_raw m) (bl_raw_size m) (Some x) (bl_lzma m) (bl_bzip2 m))) with (m' := Blob x0 x1 x2 None None); [oth|intros []; reflexivity|now intros x b ->|reflexivity|exact H2|destruct x2; reflexivity]|].
  eapply fold_seq; [eapply (fold_blob _ 4 eq Some (fun x m => Blob (bl_raw m) (bl_raw_size m) (bl_zlib m) (Some x) (bl_bzip2 m))) with (m' := Blob x0 x1 x2 x3 None); [oth|intros []; reflexivity|now intros x b ->|reflexivity|exact H3|destruct x3; reflexivity]|].
  eapply (fold_blob _ 5 eq Some (fun x m => Blob (bl_raw m) (bl_raw_size m) (bl_zlib m) (bl_lzma m) (Some x))) with (m' := Blob x0 x1 x2 x3 x4); [oth|intros []; reflexivity|now intros x b ->|reflexivity|exact H4|destruct x4; reflexivity].
Qed.

(** ** C74 *)

Lemma some_present {A} (o : option A) : is_some o = true <-> present o.
Proof. unfold present. destruct o; cbn; split; intros H; try discriminate; eauto. destruct H; discriminate. Qed.
Lemma all_spec {A} (f : A -> bool) (P : A -> Prop) l : (forall x, f x = true <-> P x) -> (forallb f l = true <-> forall x, In x l -> P x).
Proof. intros H. rewrite forallb_forall. split; intros G x Hx; apply H; now apply G. Qed.
Lemma header_init m : bh_init m = true <-> header_complete m.
Proof. unfold bh_init, header_complete. now rewrite andb_true_iff, !some_present. Qed.
Lemma block_init m : pb_init m = true <-> block_complete m.
Proof.
  unfold pb_init, block_complete. rewrite andb_true_iff, some_present. apply and_iff_compat_l.
  rewrite forallb_forall.
  assert (G : forall g, pg_init g = true <->
    (forall x, In x (pg_nodes g) -> present (pn_id x) /\ present (pn_lat x) /\ present (pn_lon x)) /\
    (forall x, In x (pg_ways g) -> present (pw_id x)) /\ (forall x, In x (pg_rels g) -> present (pr_id x)) /\
    (forall x, In x (pg_changesets g) -> present x)).
  { intros g. unfold pg_init. rewrite !andb_true_iff.
    rewrite (all_spec pn_init (fun x => present (pn_id x) /\ present (pn_lat x) /\ present (pn_lon x)));
      [|intros x; unfold pn_init; rewrite !andb_true_iff, !some_present; tauto].
    rewrite (all_spec pw_init (fun x => present (pw_id x))) by (intros x; apply some_present).
    rewrite (all_spec pr_init (fun x => present (pr_id x))) by (intros x; apply some_present).
    rewrite (all_spec cs_init present) by (intros x; apply some_present). tauto. }
  split; intros H g Hg; apply G; now apply H.
Qed.

(** Any bytes that encode a blob header, blob or block, in whatever order, in whatever
    pieces, with padded varints, repeated or unknown fields: they parse to the message,
    unless a required field is missing; then they are an error. *)
Theorem C74_any_encoding : forall rt fs bs, message_bytes fs bs ->
  (forall m, header_enc m fs -> (header_complete m -> parse_header rt bs = Some m) /\ (~ header_complete m -> parse_header rt bs = None)) /\
  (forall m, blob_enc m fs -> parse_blob rt bs = Some m) /\
  (forall m, block_enc m fs -> (block_complete m -> parse_block rt bs = Some m) /\ (~ block_complete m -> parse_block rt bs = None)).
Proof.
  intros rt fs bs H. split; [|split]; intros m E.
  - unfold parse_header, checked_init. rewrite (merge_any rt _ _ fs bs H), (bh_any rt m fs E). rewrite <- header_init.
    destruct (bh_init m); split; intros C; try reflexivity; [now destruct C|discriminate].
  - unfold parse_blob. rewrite (merge_any rt _ _ fs bs H). now apply bl_any.
  - unfold parse_block, checked_init. rewrite (merge_any rt _ _ fs bs H), (pb_any rt m fs E). rewrite <- block_init.
    destruct (pb_init m); split; intros C; try reflexivity; [now destruct C|discriminate].
Qed.
Print Assumptions C74_any_encoding.

(** So two different messages have no encoding in common. *)
Theorem C74_unambiguous : forall fs m1 m2, block_enc m1 fs -> block_enc m2 fs -> m1 = m2.
Proof.
  intros fs m1 m2 H1 H2. apply (pb_any (Pbrt true true true)) in H1, H2. congruence.
Qed.
Print Assumptions C74_unambiguous.

(** A block that no writer of this crate would produce: the group before the strings,
    the string table in two pieces, and in the way the references partly packed, the id
    twice (the last one, written with a padded tag, counts), the info in two pieces and
    an unknown field 30. *)
Definition odd_way_fields : list field :=
  [(34, WLen [8; 3; 16; 9]); (66, WLen [20; 1]); (8, WVar 9); (16, WVar 1); (26, WLen [0]); (64, WVar 4); (8, WVar 7); (240, WVar 5);
   (34, WLen [24; 5; 32; 6; 40; 1; 48; 1])].
Definition odd_way_bytes : bytes :=
  [34; 4; 8; 3; 16; 9; 66; 130; 0; 20; 1; 8; 9; 16; 1; 26; 1; 0; 64; 4; 136; 0; 7; 240; 1; 5; 34; 8; 24; 5; 32; 6; 40; 1; 48; 1].
Definition odd_way : pway :=
  PWay (Some 7) [1] [0] (Some (Info (Some 3) (Some 9) (Some 5) (Some 6) (Some 1) (Some true))) [10; 9 - 10; 2].
Definition odd_block_fields : list field :=
  [(18, WLen ([26; 36] ++ odd_way_bytes)); (10, WLen [10; 0]); (10, WLen [10; 1; 117])].
Definition odd_block_bytes : bytes := [18; 38; 26; 36] ++ odd_way_bytes ++ [10; 2; 10; 0; 10; 3; 10; 1; 117].
Definition odd_block : pblock :=
  PBlock (Some [[]; [117]]) [PGroup [] None [odd_way] [] []] None None None None.
Ltac vint := repeat split; cbn; lia.
Example C74_example : message_bytes odd_block_fields odd_block_bytes /\ block_enc odd_block odd_block_fields /\ block_complete odd_block.
Proof.
  assert (W : message_bytes odd_way_fields odd_way_bytes).
  { split; [repeat constructor; cbn; lia|].
    exists [[34] ++ [4] ++ [8; 3; 16; 9]; [66] ++ [130; 0] ++ [20; 1]; [8] ++ [9]; [16] ++ [1]; [26] ++ [1] ++ [0]; [64] ++ [4]; [136; 0] ++ [7]; [240; 1] ++ [5]; [34] ++ [8] ++ [24; 5; 32; 6; 40; 1; 48; 1]].
    split; [reflexivity|]. unfold odd_way_fields.
    repeat match goal with |- Forall2 _ _ _ => constructor end; constructor; try reflexivity; vint. }
  assert (E : way_enc odd_way odd_way_fields).
  { unfold way_enc, odd_way; repeat match goal with |- _ /\ _ => split end; cbn [pw_id pw_keys pw_vals pw_info pw_refs].
    - exists [(8, WVar 9)], 7. split; [reflexivity|]. split; [unfold int64_v, in_i64; lia|]. constructor; [|constructor].
      exists 9, 9. split; [reflexivity|]. unfold int64_v, in_i64; lia.
    - apply (cf_one 2 uint32_v 1 1 [] []); [unfold uint32_v, in_u32; lia|constructor].
    - apply (cf_packed 3 uint32_v [0] [0] [[0]] [] []); [repeat constructor; unfold uint32_v, in_u32; lia|constructor; [vint|constructor]|constructor].
    - exists [[(8, WVar 3); (16, WVar 9)]; [(24, WVar 5); (32, WVar 6); (40, WVar 1); (48, WVar 1)]], [[8; 3; 16; 9]; [24; 5; 32; 6; 40; 1; 48; 1]].
      split; [discriminate|]. split; [|split; [reflexivity|]].
      + constructor; [|constructor; [|constructor]]; (split; [repeat constructor; cbn; lia|]).
        * exists [[8] ++ [3]; [16] ++ [9]]. split; [reflexivity|]. repeat match goal with |- Forall2 _ _ _ => constructor end; constructor; try reflexivity; vint.
        * exists [[24] ++ [5]; [32] ++ [6]; [40] ++ [1]; [48] ++ [1]]. split; [reflexivity|].
          repeat match goal with |- Forall2 _ _ _ => constructor end; constructor; try reflexivity; vint.
      + unfold info_enc. repeat match goal with |- _ /\ _ => split end; cbn [i_version i_timestamp i_changeset i_uid i_user_sid i_visible concat app].
        all: eexists [], _; split; [reflexivity|]; split; [|constructor].
        1-5: unfold int32_v, int64_v, uint32_v, in_i32, in_i64, in_u32; lia.
        split; [lia|]. split; [discriminate|reflexivity].
    - apply (cf_packed 8 sint64_v [10; 9 - 10] [20; 1] [[20]; [1]] [2] [(64, WVar 4)]);
        [repeat constructor; unfold sint64_v, in_i64; lia|repeat (constructor; [vint|]); constructor|].
      apply (cf_one 8 sint64_v 2 4 [] []); [unfold sint64_v, in_i64; lia|constructor]. }
  split; [|split].
  - split; [repeat constructor; cbn; lia|]. exists [[18] ++ [38] ++ ([26; 36] ++ odd_way_bytes); [10] ++ [2] ++ [10; 0]; [10] ++ [3] ++ [10; 1; 117]].
    split; [reflexivity|]. unfold odd_block_fields. repeat match goal with |- Forall2 _ _ _ => constructor end; constructor; try reflexivity; vint.
  - unfold block_enc; repeat match goal with |- _ /\ _ => split end; try reflexivity.
    + exists [[(10, WLen [])]; [(10, WLen [117])]], [[10; 0]; [10; 1; 117]]. split; [discriminate|]. split; [|split; reflexivity].
      repeat constructor; try (cbn; lia).
      * exists [[10] ++ [0] ++ []]. split; [reflexivity|]. constructor; [|constructor]. constructor; try reflexivity; vint.
      * exists [[10] ++ [1] ++ [117]]. split; [reflexivity|]. constructor; [|constructor]. constructor; try reflexivity; vint.
    + exists [[26; 36] ++ odd_way_bytes]. split; [reflexivity|]. constructor; [|constructor]. exists [(26, WLen odd_way_bytes)]. split.
      * split; [repeat constructor; cbn; lia|]. exists [[26] ++ [36] ++ odd_way_bytes]. split; [reflexivity|]. constructor; [|constructor].
        constructor; try reflexivity; vint.
      * unfold group_enc; repeat match goal with |- _ /\ _ => split end; try reflexivity; try (exists []; split; [reflexivity|constructor]).
        exists [odd_way_bytes]. split; [reflexivity|]. constructor; [|constructor]. exists odd_way_fields. now split.
  - apply block_init. reflexivity.
Qed.

(** ** Whole files in any encoding *)

From Verif Require Import Timestamp Obj PbfRead SpecPbf SpecIter PbfFrame PbfFacts PbfExact PropsPbfBlock PropsPbf.

(** A blob of a file, and the objects it carries: the length of the header in four bytes,
    the header and the data, each in any encoding; data compressed with zlib, and in it
    any encoding of a block that means those objects (SpecPbf); blobs of another type
    carry nothing, whatever their data. *)
Inductive blob_carries (inflate : bytes -> option bytes) : bytes -> list sobj -> Prop :=
| bc_data hb hfs h bb bfs b z n data dfs blk l :
    message_bytes hfs hb -> header_enc h hfs -> Z.of_nat (length hb) < 2^32 ->
    bh_type h = Some (lit "OSMData") -> bh_datasize h = Some (Z.of_nat (length bb)) ->
    message_bytes bfs bb -> blob_enc b bfs -> bl_raw b = None -> bl_zlib b = Some z -> bl_raw_size b = Some n -> 0 <= n ->
    inflate z = Some data -> message_bytes dfs data -> block_enc blk dfs -> block_complete blk ->
    block_is blk l -> block_supported blk l ->
    blob_carries inflate (be32 (Z.of_nat (length hb)) ++ hb ++ bb) l
| bc_other hb hfs h bb t :
    message_bytes hfs hb -> header_enc h hfs -> Z.of_nat (length hb) < 2^32 ->
    bh_type h = Some t -> t <> lit "OSMData" -> bh_datasize h = Some (Z.of_nat (length bb)) ->
    blob_carries inflate (be32 (Z.of_nat (length hb)) ++ hb ++ bb) [].

Lemma next_blob_piece rt hb hfs h bb t r : message_bytes hfs hb -> header_enc h hfs -> Z.of_nat (length hb) < 2^32 ->
  bh_type h = Some t -> bh_datasize h = Some (Z.of_nat (length bb)) ->
  next_blob rt ((be32 (Z.of_nat (length hb)) ++ hb ++ bb) ++ r) =
  if str_eqb t (lit "OSMData") then do b <- unwrap (parse_blob rt bb); Ret (Some b, r) else next_blob rt r.
Proof.
  intros H1 H2 H3 H4 H5. destruct (C74_any_encoding rt hfs hb H1) as (P & _ & _). destruct (P h H2) as (P' & _).
  assert (Hp : parse_header rt hb = Some h) by (apply P'; unfold header_complete; rewrite H4, H5; split; eexists; reflexivity). clear P P'.
  unfold next_blob at 1. cbn [next_blob_fuel]. rewrite <- !app_assoc. rewrite read_u32_be32 by lia.
  rewrite read_exact_app by reflexivity. cbn [obind]. rewrite Hp. cbn [unwrap obind]. rewrite H5. cbn [unwrap_or].
  rewrite read_exact_app by reflexivity. cbn [obind]. rewrite H4. cbn [unwrap obind].
  destruct (str_eqb t (lit "OSMData")); cbn [negb]; [reflexivity|].
  apply next_blob_fuel_irrel; [|lia]. rewrite !app_length. cbn [length be32]. lia.
Qed.

(** The string reader and the shared-text reader return exactly the objects the blobs
    carry, in order, however the file is encoded. *)
Theorem C74_supported_files : forall rt chk inflate pieces ls, Forall2 (blob_carries inflate) pieces ls ->
  Runs (s_next rt chk inflate) (s_new (concat pieces)) (concat ls) (Ret (s_new [])) /\
  Runs (a_next rt chk inflate) (concat pieces, []) (map arc_of (concat ls)) (Ret ([], [])).
Proof.
  intros rt chk infl pieces ls F.
  assert (K : exists bs ls', Runs (next_blob rt) (concat pieces) bs (Ret []) /\ concat ls' = concat ls /\
    Forall2 (fun b l => s_blob rt chk infl (OF true true true) b = Ret l /\ a_blob rt chk infl b = Ret (map arc_of l)) bs ls').
  { induction F as [|p l pieces ls P _ (bs & ls' & R & E & D)].
    - exists [], []. split; [apply Runs_end; reflexivity|]. split; [reflexivity|constructor].
    - cbn [concat]. inv P.
      + match goal with H1 : message_bytes hfs hb, H2 : header_enc h hfs, H3 : _ < _, H4 : bh_type h = _, H5 : bh_datasize h = _ |- _ =>
          pose proof (next_blob_piece rt hb hfs h bb _ (concat pieces) H1 H2 H3 H4 H5) as N end.
        rewrite str_eqb_refl in N.
        match goal with H1 : message_bytes bfs bb, H2 : blob_enc b bfs |- _ => pose proof (proj1 (proj2 (C74_any_encoding rt bfs bb H1)) b H2) as B end.
        rewrite B in N. cbn [unwrap obind] in N.
        assert (C : carries rt infl (Data None b) l).
        { exists z, data, blk, n. repeat match goal with |- _ /\ _ => split end; try assumption.
          match goal with H1 : message_bytes dfs data, H2 : block_enc blk dfs |- _ =>
            apply (proj1 (proj2 (proj2 (C74_any_encoding rt dfs data H1)) blk H2)) end. assumption. }
        exists (b :: bs), (l :: ls'). split; [eapply Runs_step; [exact N|exact R]|]. split; [cbn [concat]; now rewrite E|].
        constructor; [|exact D]. split; [eapply carries_s; exact C|eapply carries_a; exact C].
      + match goal with H1 : message_bytes hfs hb, H2 : header_enc h hfs, H3 : _ < _, H4 : bh_type h = _, H5 : bh_datasize h = _ |- _ =>
          pose proof (next_blob_piece rt hb hfs h bb _ (concat pieces) H1 H2 H3 H4 H5) as N end.
        replace (str_eqb t (lit "OSMData")) with false in N by (symmetry; now apply str_eqb_neq).
        exists bs, ls'. split; [eapply Runs_eq; [exact N|exact R]|]. now split. }
  destruct K as (bs & ls' & R & <- & D). split.
  - assert (D' : Forall2 (fun b l => s_blob rt chk infl (OF true true true) b = Ret l) bs ls') by (clear -D; induction D as [|? ? ? ? (? & ?)]; now constructor).
    pose proof (runs_buffered rt _ _ _ _ R ls' [] D') as R'. apply s_next_runs in R'. exact R'.
  - assert (D' : Forall2 (fun b l => a_blob rt chk infl b = Ret l) bs (map (map arc_of) ls')) by (clear -D; induction D as [|? ? ? ? (? & ?)]; now constructor).
    pose proof (runs_buffered rt _ _ _ _ R _ [] D') as R'. apply a_next_runs in R'. rewrite concat_map. exact R'.
Qed.
Print Assumptions C74_supported_files.

(** Two ways to write the same blob: headers, blobs, compression and block in any
    encoding, the same block; or both of some type other than OSMData. *)
Inductive same_blob (inflate : bytes -> option bytes) : bytes -> bytes -> Prop :=
| sb_data h h' hfs hfs' hb hb' b b' bfs bfs' bb bb' z z' n n' data data' dfs dfs' blk :
    message_bytes hfs hb -> header_enc h hfs -> Z.of_nat (length hb) < 2^32 ->
    message_bytes hfs' hb' -> header_enc h' hfs' -> Z.of_nat (length hb') < 2^32 ->
    bh_type h = Some (lit "OSMData") -> bh_datasize h = Some (Z.of_nat (length bb)) ->
    bh_type h' = Some (lit "OSMData") -> bh_datasize h' = Some (Z.of_nat (length bb')) ->
    message_bytes bfs bb -> blob_enc b bfs -> bl_raw b = None -> bl_zlib b = Some z -> bl_raw_size b = Some n -> 0 <= n ->
    message_bytes bfs' bb' -> blob_enc b' bfs' -> bl_raw b' = None -> bl_zlib b' = Some z' -> bl_raw_size b' = Some n' -> 0 <= n' ->
    inflate z = Some data -> message_bytes dfs data -> block_enc blk dfs ->
    inflate z' = Some data' -> message_bytes dfs' data' -> block_enc blk dfs' -> block_complete blk ->
    same_blob inflate (be32 (Z.of_nat (length hb)) ++ hb ++ bb) (be32 (Z.of_nat (length hb')) ++ hb' ++ bb')
| sb_other h h' hfs hfs' hb hb' bb bb' t t' :
    message_bytes hfs hb -> header_enc h hfs -> Z.of_nat (length hb) < 2^32 ->
    message_bytes hfs' hb' -> header_enc h' hfs' -> Z.of_nat (length hb') < 2^32 ->
    bh_type h = Some t -> bh_datasize h = Some (Z.of_nat (length bb)) -> t <> lit "OSMData" ->
    bh_type h' = Some t' -> bh_datasize h' = Some (Z.of_nat (length bb')) -> t' <> lit "OSMData" ->
    same_blob inflate (be32 (Z.of_nat (length hb)) ++ hb ++ bb) (be32 (Z.of_nat (length hb')) ++ hb' ++ bb').

(** The same blobs, decoded alike, give the same runs. *)
Lemma alike_runs {A} rt (decode : blob -> outcome (list A)) src src' bs bs' :
  Runs (next_blob rt) src bs (Ret []) -> Runs (next_blob rt) src' bs' (Ret []) -> Forall2 (fun b b' => decode b = decode b') bs bs' ->
  forall l r, Runs (buf_next rt decode) (src, []) l r -> Runs (buf_next rt decode) (src', []) l r.
Proof.
  intros R R' F l r H. apply buffered_inv in H as (bs0 & rb & R0 & D).
  destruct (Runs_det _ _ _ _ R0 _ _ R) as [-> ->]. destruct D as [(ls & D & -> & ->)|(bs1 & b & bs2 & ls & -> & P & D & -> & ->)].
  - assert (D' : Forall2 (fun b l => decode b = Ret l) bs' ls).
    { clear -F D. revert ls D. induction F as [|b b' bs bs' E _ IH]; intros ls D; inv D; constructor; [congruence|now apply IH]. }
    exact (runs_buffered rt _ _ _ _ R' ls [] D').
  - apply Forall2_app_inv_l in F as (bs1' & t & F1 & F2 & ->). inv F2.
    assert (D' : Forall2 (fun b l => decode b = Ret l) bs1' ls).
    { clear -F1 D. revert ls D. induction F1 as [|? ? ? ? E _ IH]; intros ls D; inv D; constructor; [congruence|now apply IH]. }
    match goal with H : decode b = decode _ |- _ => rewrite P in H; exact (runs_buffered_panic rt _ _ _ _ _ _ R' (eq_sym H) ls [] D') end.
Qed.

(** What a reader returns for a file depends only on the messages in it, not on how
    they are encoded. *)
Theorem C74_encoding_irrelevant : forall rt chk inflate ps qs, Forall2 (same_blob inflate) ps qs ->
  (forall flt os r, Runs (s_next rt chk inflate) (s_set_filter flt (s_new (concat ps))) os r ->
     Runs (s_next rt chk inflate) (s_set_filter flt (s_new (concat qs))) os r) /\
  (forall os r, Runs (a_next rt chk inflate) (concat ps, []) os r -> Runs (a_next rt chk inflate) (concat qs, []) os r).
Proof.
  intros rt chk infl ps qs F.
  assert (K : exists bs bs', Runs (next_blob rt) (concat ps) bs (Ret []) /\ Runs (next_blob rt) (concat qs) bs' (Ret []) /\
    Forall2 (fun b b' => (forall flt, s_blob rt chk infl flt b = s_blob rt chk infl flt b') /\ a_blob rt chk infl b = a_blob rt chk infl b') bs bs').
  { induction F as [|p q ps qs P _ (bs & bs' & R & R' & D)].
    - exists [], []. split; [apply Runs_end; reflexivity|]. split; [apply Runs_end; reflexivity|constructor].
    - cbn [concat]. inv P.
      + match goal with H1 : message_bytes hfs hb, H2 : header_enc h hfs, H3 : Z.of_nat (length hb) < _, H4 : bh_type h = _, H5 : bh_datasize h = _ |- _ =>
          pose proof (next_blob_piece rt hb hfs h bb _ (concat ps) H1 H2 H3 H4 H5) as N end.
        match goal with H1 : message_bytes hfs' hb', H2 : header_enc h' hfs', H3 : Z.of_nat (length hb') < _, H4 : bh_type h' = _, H5 : bh_datasize h' = _ |- _ =>
          pose proof (next_blob_piece rt hb' hfs' h' bb' _ (concat qs) H1 H2 H3 H4 H5) as N' end.
        rewrite str_eqb_refl in N, N'.
        match goal with H1 : message_bytes bfs bb, H2 : blob_enc b bfs |- _ => pose proof (proj1 (proj2 (C74_any_encoding rt bfs bb H1)) b H2) as B end.
        match goal with H1 : message_bytes bfs' bb', H2 : blob_enc b' bfs' |- _ => pose proof (proj1 (proj2 (C74_any_encoding rt bfs' bb' H1)) b' H2) as B' end.
        rewrite B in N. rewrite B' in N'. cbn [unwrap obind] in N, N'.
        assert (P : parse_block rt data = Some blk).
        { match goal with H1 : message_bytes dfs data, H2 : block_enc blk dfs |- _ =>
            apply (proj1 (proj2 (proj2 (C74_any_encoding rt dfs data H1)) blk H2)) end. assumption. }
        assert (P' : parse_block rt data' = Some blk).
        { match goal with H1 : message_bytes dfs' data', H2 : block_enc blk dfs' |- _ =>
            apply (proj1 (proj2 (proj2 (C74_any_encoding rt dfs' data' H1)) blk H2)) end. assumption. }
        exists (b :: bs), (b' :: bs'). split; [eapply Runs_step; [exact N|exact R]|]. split; [eapply Runs_step; [exact N'|exact R']|].
        constructor; [|exact D]. split.
        * intros flt. unfold s_blob, s_blob_data.
          repeat match goal with H : bl_raw _ = _ |- _ => rewrite H; clear H | H : bl_zlib _ = _ |- _ => rewrite H; clear H
            | H : infl _ = _ |- _ => rewrite H; clear H end. cbn [unwrap obind].
          destruct data; [now apply parse_nonempty in P|]. destruct data'; [now apply parse_nonempty in P'|]. now rewrite P, P'.
        * unfold a_blob, a_blob_data.
          repeat match goal with H : bl_raw _ = _ |- _ => rewrite H; clear H | H : bl_zlib _ = _ |- _ => rewrite H; clear H
            | H : bl_raw_size _ = _ |- _ => rewrite H; clear H | H : infl _ = _ |- _ => rewrite H; clear H end. cbn [unwrap obind].
          replace (n <? 0) with false by lia. replace (n' <? 0) with false by lia. cbn [unwrap obind]. now rewrite P, P'.
      + match goal with H1 : message_bytes hfs hb, H2 : header_enc h hfs, H3 : Z.of_nat (length hb) < _, H4 : bh_type h = _, H5 : bh_datasize h = _ |- _ =>
          pose proof (next_blob_piece rt hb hfs h bb _ (concat ps) H1 H2 H3 H4 H5) as N end.
        match goal with H1 : message_bytes hfs' hb', H2 : header_enc h' hfs', H3 : Z.of_nat (length hb') < _, H4 : bh_type h' = _, H5 : bh_datasize h' = _ |- _ =>
          pose proof (next_blob_piece rt hb' hfs' h' bb' _ (concat qs) H1 H2 H3 H4 H5) as N' end.
        replace (str_eqb t (lit "OSMData")) with false in N by (symmetry; now apply str_eqb_neq).
        replace (str_eqb t' (lit "OSMData")) with false in N' by (symmetry; now apply str_eqb_neq).
        exists bs, bs'. split; [eapply Runs_eq; [exact N|exact R]|]. split; [eapply Runs_eq; [exact N'|exact R']|exact D]. }
  destruct K as (bs & bs' & R & R' & D). split.
  - intros flt os r H. apply s_next_runs_inv in H as (r' & H & ->). cbn [s_set_filter s_new sr_filter sr_src sr_buf] in *.
    eapply s_next_runs, alike_runs; [exact R|exact R'| |exact H]. clear -D. induction D as [|? ? ? ? (E & _)]; constructor; auto.
  - intros os r H. apply a_next_runs_inv in H as (r' & H & ->).
    change (@nil aobj) with (rev (@nil aobj)) at 1. eapply a_next_runs, alike_runs; [exact R|exact R'| |exact H].
    clear -D. induction D as [|? ? ? ? (_ & E)]; constructor; auto.
Qed.
Print Assumptions C74_encoding_irrelevant.

(** The odd block in a file, and in a second file with the fields of header and blob in
    another order. *)
Definition odd_type : bytes := [10; 7; 79; 83; 77; 68; 97; 116; 97].
Definition odd_piece : bytes := [0; 0; 0; 11] ++ (odd_type ++ [24; 53]) ++ ([16; 49; 26; 49] ++ odd_block_bytes).
Definition odd_piece' : bytes := [0; 0; 0; 11] ++ ([24; 54] ++ odd_type) ++ ([26; 49] ++ odd_block_bytes ++ [16; 177; 0]).
Definition odd_obj : sobj :=
  SWay (SW (Meta 7 (Some 3) false (Some 5) (Some (EpochNumber 9)) (Some 6) (Some [117])) [([117], [])] [10; 9; 11]).
Example C74_files_example : blob_carries Some odd_piece [odd_obj] /\ same_blob Some odd_piece odd_piece'.
Proof.
  assert (V : forall s, Forall Base.scalar s <-> forallb scalarb s = true).
  { intros s. rewrite forallb_forall, Forall_forall. split; intros H x Hx; apply scalarb_iff; auto. }
  destruct C74_example as (D1 & D2 & D3). set (ty := [79; 83; 77; 68; 97; 116; 97]).
  assert (H1 : message_bytes [(10, WLen ty); (24, WVar 53)] (odd_type ++ [24; 53])).
  { split; [repeat constructor; cbn; lia|]. exists [[10] ++ [7] ++ ty; [24] ++ [53]]. split; [reflexivity|].
    repeat match goal with |- Forall2 _ _ _ => constructor end; constructor; try reflexivity; vint. }
  assert (H2 : message_bytes [(24, WVar 54); (10, WLen ty)] ([24; 54] ++ odd_type)).
  { split; [repeat constructor; cbn; lia|]. exists [[24] ++ [54]; [10] ++ [7] ++ ty]. split; [reflexivity|].
    repeat match goal with |- Forall2 _ _ _ => constructor end; constructor; try reflexivity; vint. }
  assert (E1 : forall n fs, in_i32 n -> 0 <= n -> fs = [(10, WLen ty); (24, WVar n)] \/ fs = [(24, WVar n); (10, WLen ty)] ->
    header_enc (BlobHeader (Some (lit "OSMData")) None (Some n)) fs).
  { intros n fs Hn H0 Hf. unfold header_enc. cbn [bh_type bh_index bh_datasize].
    assert (N1 : typed 1 [2] fs = [(10, WLen ty)]) by (destruct Hf as [-> | ->]; reflexivity).
    assert (N2 : typed 2 [2] fs = []) by (destruct Hf as [-> | ->]; reflexivity).
    assert (N3 : typed 3 [0] fs = [(24, WVar n)]) by (destruct Hf as [-> | ->]; reflexivity).
    split; [|split].
    - exists [], ty. rewrite N1. split; [reflexivity|]. split; [|constructor]. split; [|reflexivity]. apply V. reflexivity.
    - exact N2.
    - exists [], n. rewrite N3. split; [reflexivity|]. split; [|constructor]. unfold int32_v. split; [exact Hn|lia]. }
  assert (B1 : message_bytes [(16, WVar 49); (26, WLen odd_block_bytes)] ([16; 49; 26; 49] ++ odd_block_bytes)).
  { split; [repeat constructor; cbn; lia|]. exists [[16] ++ [49]; [26] ++ [49] ++ odd_block_bytes]. split; [reflexivity|].
    repeat match goal with |- Forall2 _ _ _ => constructor end; constructor; try reflexivity; vint. }
  assert (B2 : message_bytes [(26, WLen odd_block_bytes); (16, WVar 49)] ([26; 49] ++ odd_block_bytes ++ [16; 177; 0])).
  { split; [repeat constructor; cbn; lia|]. exists [[26] ++ [49] ++ odd_block_bytes; [16] ++ [177; 0]]. split; [reflexivity|].
    repeat match goal with |- Forall2 _ _ _ => constructor end; constructor; try reflexivity; vint. }
  assert (E2 : forall fs, fs = [(16, WVar 49); (26, WLen odd_block_bytes)] \/ fs = [(26, WLen odd_block_bytes); (16, WVar 49)] ->
    blob_enc (Blob None (Some 49) (Some odd_block_bytes) None None) fs).
  { intros fs Hf. unfold blob_enc. cbn [bl_raw bl_raw_size bl_zlib bl_lzma bl_bzip2].
    assert (N2 : typed 2 [0] fs = [(16, WVar 49)]) by (destruct Hf as [-> | ->]; reflexivity).
    assert (N3 : typed 3 [2] fs = [(26, WLen odd_block_bytes)]) by (destruct Hf as [-> | ->]; reflexivity).
    repeat match goal with |- _ /\ _ => split end; try (destruct Hf as [-> | ->]; reflexivity).
    - exists [], 49. rewrite N2. split; [reflexivity|]. split; [|constructor]. unfold int32_v, in_i32. lia.
    - exists [], odd_block_bytes. rewrite N3. split; [reflexivity|]. split; [reflexivity|constructor]. }
  assert (I53 : in_i32 53) by (unfold in_i32; lia). assert (I54 : in_i32 54) by (unfold in_i32; lia).
  pose proof (E1 53 _ I53 ltac:(lia) (or_introl eq_refl)) as F1. pose proof (E1 54 _ I54 ltac:(lia) (or_intror eq_refl)) as F2.
  pose proof (E2 _ (or_introl eq_refl)) as G1. pose proof (E2 _ (or_intror eq_refl)) as G2. split.
  - assert (K : blob_carries Some (be32 (Z.of_nat (length (odd_type ++ [24; 53]))) ++ (odd_type ++ [24; 53]) ++ ([16; 49; 26; 49] ++ odd_block_bytes)) [odd_obj]);
      [|exact K].
    eapply bc_data with (data := odd_block_bytes); try eassumption; try reflexivity; try (cbn; lia).
    + assert (T0 : string_at [[]; [117]] 0 []) by (split; [lia|]; split; [apply V|]; reflexivity).
      assert (T1 : string_at [[]; [117]] 1 [117]) by (split; [lia|]; split; [apply V|]; reflexivity).
      exists [[]; [117]], [[odd_obj]]. split; [reflexivity|]. split.
      { constructor; [exists []; split; [apply V|]; reflexivity|]. constructor; [exists [117]; split; [apply V|]; reflexivity|constructor]. }
      split; [|reflexivity]. constructor; [|constructor].
      apply (GWays odd_block [[]; [117]] [odd_way] [SW (Meta 7 (Some 3) false (Some 5) (Some (EpochNumber 9)) (Some 6) (Some [117])) [([117], [])] [10; 9; 11]]); [discriminate|].
      constructor; [|constructor]. unfold way_is, odd_way. cbn [pw_id pw_keys pw_vals pw_info pw_refs sw_meta sw_tags sw_nodes m_id].
      split; [reflexivity|]. split.
      { exists (Info (Some 3) (Some 9) (Some 5) (Some 6) (Some 1) (Some true)), 9, [117], 1.
        repeat match goal with |- _ /\ _ => split end; try reflexivity; try discriminate; try apply T1; try (apply V; reflexivity). exists 9. split; reflexivity. }
      split; [reflexivity|]. split; [constructor; [split; assumption|constructor]|].
      split; [reflexivity|]. intros i x Hi. destruct i as [|[|[|i]]]; cbn in Hi; try (injection Hi as <-; reflexivity). now destruct i.
    + split.
      { split; [exists 1|exists 0|exists 0|]; try reflexivity; split; try reflexivity; unfold in_i32; lia. }
      exists (PGroup [] None [odd_way] [] []). split; [reflexivity|]. unfold group_supported. cbn [pg_dense pg_ways pg_rels].
      split; [constructor; [eexists; split; [reflexivity|]; discriminate|constructor]|]. split; [constructor|]. constructor; [|constructor].
      split; [|repeat constructor; unfold in_i64; lia].
      split; cbn [m_id m_version m_timestamp m_changeset m_uid s_meta odd_obj sw_meta]; [unfold in_i64; lia| | | |]; (eexists; split; [reflexivity|]);
        unfold in_u32; try lia. exists 9. split; [reflexivity|unfold in_i64; lia].
  - assert (K : same_blob Some (be32 (Z.of_nat (length (odd_type ++ [24; 53]))) ++ (odd_type ++ [24; 53]) ++ ([16; 49; 26; 49] ++ odd_block_bytes))
      (be32 (Z.of_nat (length ([24; 54] ++ odd_type))) ++ ([24; 54] ++ odd_type) ++ ([26; 49] ++ odd_block_bytes ++ [16; 177; 0])));
      [|exact K].
    eapply sb_data with (data := odd_block_bytes) (data' := odd_block_bytes); try eassumption; try reflexivity; try (cbn; lia).
Qed.
