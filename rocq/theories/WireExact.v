(** Only encodings are accepted: whatever the parsers read is an encoding of the
    message they return (the converse of PropsPbfWire.v). *)
From Coq Require Import String ZArith List Bool Lia.
From Coq Require Import ZifyBool ZifyNat.
From Verif Require Import Base Utf8 PbWire PbMsg PbMsgFacts PropsPbfFile SpecWire PropsPbfWire.
Import ListNotations.
Open Scope Z_scope.

(** The library rejects numbers that do not fit. *)
Definition strict : pbrt := Pbrt true true true.

(** ** Varints *)

Lemma rv_inv : forall n sh acc bs v r, Forall byte bs -> (1 <= n <= 10)%nat -> sh = 128 ^ (10 - Z.of_nat n) -> 0 <= acc < sh ->
  rv strict n sh acc bs = Some (v, r) ->
  exists vb, bs = vb ++ r /\ varint_shape vb /\ (length vb <= n)%nat /\ v = acc + base128 vb * sh /\ v < 2^64.
Proof.
  induction n as [|n IH]; intros sh acc bs v r Hb Hn Hsh Hacc H; [lia|].
  destruct bs as [|b bs]; [discriminate|]. inversion Hb as [|? ? B1 B2]; subst. unfold byte in B1.
  cbn [rv strict strict_tenth] in H. pose proof (Z.mod_pos_bound b 128 ltac:(lia)) as Hm.
  destruct (Nat.eqb n 0) eqn:E0.
  - apply Nat.eqb_eq in E0. subst n. change (128 ^ (10 - Z.of_nat 1)) with (2^63) in *. cbn [andb] in H.
    destruct (1 <? b mod 128) eqn:E1; [discriminate|]. destruct (b <? 128) eqn:E; [|discriminate].
    injection H as <- <-. exists [b]. cbn [varint_shape length base128 app]. rewrite (Z.mod_small b 128) in * by lia.
    repeat split; try lia; try reflexivity.
  - cbn [andb] in H. apply Nat.eqb_neq in E0.
    assert (P : 128 ^ (10 - Z.of_nat (S n)) * 128 = 128 ^ (10 - Z.of_nat n)).
    { rewrite Z.mul_comm, <- Z.pow_succ_r by lia. f_equal. lia. }
    set (sh := 128 ^ (10 - Z.of_nat (S n))) in *. destruct (b <? 128) eqn:E.
    + injection H as <- <-. exists [b]. rewrite (Z.mod_small b 128) in * by lia.
      assert (Hs : sh * 128 <= 2^63) by (rewrite P; change (2^63) with (128^9); apply Z.pow_le_mono_r; lia).
      assert (Hq : 0 <= b * sh <= 127 * sh) by nia.
      cbn [varint_shape length base128 app]. rewrite (Z.mod_small b 128) by lia. rewrite (Z.mod_small (acc + _)) by lia.
      repeat split; try lia; try reflexivity.
    + assert (Ha : 0 <= acc + b mod 128 * sh < sh * 128) by nia.
      destruct (IH (sh * 128) (acc + b mod 128 * sh) bs v r B2 ltac:(lia) P Ha H)
        as (vb & -> & S & L & V & R). exists (b :: vb). split; [reflexivity|]. split; [|split; [cbn; lia|]].
      * cbn [varint_shape]. destruct vb as [|c vb]; [contradiction|]. split; [lia|exact S].
      * split; [cbn [base128]; lia|exact R].
Qed.

Lemma read_varint_inv bs v r : Forall byte bs -> read_varint strict bs = Some (v, r) ->
  exists vb, bs = vb ++ r /\ varint_of v vb /\ 0 <= v < 2^64.
Proof.
  intros Hb H. apply rv_inv in H as (vb & -> & S & L & V & R); [|assumption|lia|reflexivity|lia].
  exists vb. split; [reflexivity|]. pose proof (base128_nonneg vb). split; [|lia]. repeat split; [assumption|lia|lia].
Qed.

Lemma take_len n bs b r : 0 <= n -> take n bs = Some (b, r) -> Z.of_nat (length b) = n.
Proof.
  intros Hn. unfold take. destruct (Z.of_nat (length bs) <? n) eqn:E; [easy|]. intros H. injection H as <- <-.
  rewrite firstn_length. lia.
Qed.

(** ** Fields *)

(** A field as it can be read: the payload is of the tag's wire type. *)
Definition sound (f : field) : Prop :=
  match snd f with
  | WVar v => fst f mod 8 = 0 /\ 0 <= v < 2^64
  | WF64 _ => fst f mod 8 = 1
  | WLen b => fst f mod 8 = 2 /\ Forall byte b
  | WF32 _ => fst f mod 8 = 5
  | WGroup => fst f mod 8 = 3
  end.

Lemma read_tag_inv bs t r : Forall byte bs -> read_tag strict bs = Some (t, r) ->
  exists tb, bs = tb ++ r /\ varint_of t tb /\ 8 <= t < 2^32 /\ Forall byte r.
Proof.
  intros Hb H. unfold read_tag in H. destruct (read_varint strict bs) as [[u r0]|] eqn:Eu; [|discriminate].
  apply read_varint_inv in Eu as (tb & -> & Ht & Hu); [|exact Hb]. apply Forall_app in Hb as (_ & Hb).
  destruct (dec_u32 strict u) as [t'|] eqn:Et; [|discriminate]. unfold dec_u32 in Et. cbn [strict strict_u32] in Et.
  destruct (u <? 2^32) eqn:El; [|discriminate]. injection Et as <-.
  destruct (u / 8 =? 0) eqn:E8; [discriminate|]. injection H as <- <-. exists tb. split; [reflexivity|]. split; [exact Ht|].
  split; [Z.div_mod_to_equations; lia|exact Hb].
Qed.

Lemma read_value_inv t tb bs w r : varint_of t tb -> Forall byte bs -> read_value strict t bs = Some (w, r) ->
  exists vb, bs = vb ++ r /\ field_bytes (t, w) (tb ++ vb) /\ sound (t, w) /\ Forall byte r.
Proof.
  intros Ht Hb H. unfold read_value in H. destruct (t mod 8 =? 0) eqn:E0.
  { destruct (read_varint strict bs) as [[v r1]|] eqn:Ev; [|discriminate]. injection H as <- <-.
    apply read_varint_inv in Ev as (vb & -> & Hv & Hr); [|exact Hb]. apply Forall_app in Hb as (_ & Hb).
    exists vb. split; [reflexivity|]. split; [constructor; assumption || lia|]. cbn. repeat split; try lia. exact Hb. }
  destruct (t mod 8 =? 1) eqn:E1.
  { destruct (take 8 bs) as [[v r1]|] eqn:Ev; [|discriminate]. injection H as <- <-.
    pose proof Ev as L. apply take_len in L; [|lia]. apply take_inv in Ev as ->. apply Forall_app in Hb as (_ & Hb).
    exists v. split; [reflexivity|]. split; [constructor; try assumption; lia|]. cbn. repeat split; try lia. exact Hb. }
  destruct (t mod 8 =? 2) eqn:E2.
  { destruct (read_varint strict bs) as [[n r1]|] eqn:Ev; [|discriminate].
    apply read_varint_inv in Ev as (lb & -> & Hv & Hr); [|exact Hb]. apply Forall_app in Hb as (_ & Hb).
    destruct (take n r1) as [[v r2]|] eqn:Et; [|discriminate]. injection H as <- <-.
    pose proof Et as L. apply take_len in L; [|lia]. apply take_inv in Et as ->. apply Forall_app in Hb as (Hb1 & Hb).
    exists (lb ++ v). rewrite <- !app_assoc. split; [reflexivity|]. subst n. split; [constructor; try assumption; lia|].
    cbn. repeat split; try lia; assumption. }
  destruct (t mod 8 =? 5) eqn:E5; [|discriminate].
  destruct (take 4 bs) as [[v r1]|] eqn:Ev; [|discriminate]. injection H as <- <-.
  pose proof Ev as L. apply take_len in L; [|lia]. apply take_inv in Ev as ->. apply Forall_app in Hb as (_ & Hb).
  exists v. split; [reflexivity|]. split; [constructor; try assumption; lia|]. cbn. repeat split; try lia. exact Hb.
Qed.

Lemma skip_group_inv : forall fuel bs r, Forall byte bs -> skip_group strict fuel bs = Some r ->
  exists gb, bs = gb ++ r /\ group_bytes gb /\ Forall byte r.
Proof.
  induction fuel as [|fuel IH]; intros bs r Hb H; [discriminate|]. cbn [skip_group] in H.
  destruct (read_tag strict bs) as [[t r0]|] eqn:E; [|discriminate]. apply read_tag_inv in E as (tb & -> & Ht & Hr & Hb0); [|exact Hb].
  destruct (t mod 8 =? 4) eqn:E4.
  { injection H as <-. exists tb. split; [reflexivity|]. split; [apply (gb_end t); assumption || lia|exact Hb0]. }
  destruct (t mod 8 =? 3) eqn:E3.
  - destruct (skip_group strict fuel r0) as [r1|] eqn:E1; [|discriminate]. apply IH in E1 as (g1 & -> & G1 & Hb1); [|exact Hb0].
    apply IH in H as (g2 & -> & G2 & Hb2); [|exact Hb1]. exists ((tb ++ g1) ++ g2). rewrite <- !app_assoc. split; [reflexivity|].
    split; [|exact Hb2]. rewrite app_assoc. apply (gb_field (t, WGroup)); [exact Hr|constructor; assumption || lia|exact G2].
  - destruct (read_value strict t r0) as [[v r1]|] eqn:E1; [|discriminate]. cbn [opt_map snd] in H.
    apply (read_value_inv t tb) in E1 as (vb & -> & F & _ & Hb1); [|exact Ht|exact Hb0].
    apply IH in H as (g2 & -> & G2 & Hb2); [|exact Hb1]. exists ((tb ++ vb) ++ g2). rewrite <- !app_assoc. split; [reflexivity|].
    split; [|exact Hb2]. rewrite app_assoc. now apply (gb_field (t, v)).
Qed.

Lemma read_field_inv bs f r : Forall byte bs -> read_field strict bs = Some (f, r) ->
  exists p, bs = p ++ r /\ field_bytes f p /\ 8 <= fst f < 2^32 /\ sound f /\ Forall byte r.
Proof.
  intros Hb H. unfold read_field in H. destruct (read_tag strict bs) as [[t r0]|] eqn:E; [|discriminate].
  apply read_tag_inv in E as (tb & -> & Ht & Hr & Hb0); [|exact Hb]. destruct (t mod 8 =? 3) eqn:E3.
  - destruct (skip_group strict (length r0) r0) as [r1|] eqn:E1; [|discriminate]. injection H as <- <-.
    apply skip_group_inv in E1 as (gb & -> & G & Hb1); [|exact Hb0]. exists (tb ++ gb). rewrite app_assoc. split; [reflexivity|].
    split; [constructor; assumption || lia|]. split; [exact Hr|]. split; [cbn; lia|exact Hb1].
  - destruct (read_value strict t r0) as [[v r1]|] eqn:E1; [|discriminate]. injection H as <- <-.
    apply (read_value_inv t tb) in E1 as (vb & -> & F & S & Hb1); [|exact Ht|exact Hb0]. exists (tb ++ vb). rewrite app_assoc.
    split; [reflexivity|]. split; [exact F|]. split; [exact Hr|]. now split.
Qed.

Lemma fields_inv bs fs : Forall byte bs -> fields strict bs = Some fs -> message_bytes fs bs /\ Forall sound fs.
Proof.
  unfold fields. generalize (length bs) as fuel. intros fuel. revert bs fs. induction fuel as [|fuel IH]; intros bs fs Hb H.
  - destruct bs; [|discriminate]. injection H as <-. split; [|constructor]. split; [constructor|]. exists []. split; [reflexivity|constructor].
  - cbn [fields_fuel] in H. destruct bs as [|b bs]; [injection H as <-; split; [|constructor]; split; [constructor|]; exists []; split; [reflexivity|constructor]|].
    destruct (read_field strict (b :: bs)) as [[f r]|] eqn:E; [|discriminate].
    apply read_field_inv in E as (p & E & Hf & Ht & Hs & Hr); [|exact Hb].
    destruct (fields_fuel strict fuel r) as [fs'|] eqn:E'; [|discriminate]. injection H as <-.
    apply IH in E' as ((F1 & parts & -> & F2) & F3); [|exact Hr]. rewrite E. split; [|now constructor].
    split; [now constructor|]. exists (p :: parts). split; [reflexivity|now constructor].
Qed.

Lemma packed_inv {A} (dec : pbrt -> Z -> option A) (val : A -> Z -> Prop) bs l :
  (forall u x, 0 <= u < 2^64 -> dec strict u = Some x -> val x u) -> Forall byte bs -> packed strict dec bs = Some l ->
  exists us bss, Forall2 val l us /\ Forall2 varint_of us bss /\ bs = concat bss.
Proof.
  intros Hd. unfold packed. generalize (length bs) as fuel. intros fuel. revert bs l. induction fuel as [|fuel IH]; intros bs l Hb H.
  - destruct bs; [|discriminate]. injection H as <-. exists [], []. repeat split; constructor.
  - cbn [packed_fuel] in H. destruct bs as [|b bs]; [injection H as <-; exists [], []; repeat split; constructor|].
    destruct (read_varint strict (b :: bs)) as [[u r]|] eqn:E; [|discriminate].
    apply read_varint_inv in E as (vb & E & Hv & Hu); [|exact Hb]. rewrite E in Hb |- *. apply Forall_app in Hb as (_ & Hb).
    destruct (dec strict u) as [x|] eqn:Ed; [|discriminate]. cbn [opt_bind] in H.
    destruct (packed_fuel strict (dec strict) fuel r) as [l'|] eqn:E'; [|discriminate]. injection H as <-.
    apply IH in E' as (us & bss & F1 & F2 & ->); [|exact Hb]. exists (u :: us), (vb :: bss).
    split; [constructor; auto|]. split; [constructor; assumption|reflexivity].
Qed.

(** ** Scalar values *)

Lemma i64_inv u x : 0 <= u < 2^64 -> dec_i64 strict u = Some x -> int64_v x u.
Proof.
  intros Hu H. injection H as <-. unfold int64_v, as_i64, in_i64. destruct (Z.lt_ge_cases u (2^63)) as [L|L].
  - rewrite Z.mod_small by lia. lia.
  - replace ((u + 2^63) mod 2^64) with (u + 2^63 - 2^64); [lia|]. apply Z.mod_unique with (q := 1); lia.
Qed.
Lemma i32_inv u x : 0 <= u < 2^64 -> dec_i32 strict u = Some x -> int32_v x u.
Proof.
  intros Hu H. unfold dec_i32 in H. cbn [strict strict_i32] in H. destruct (in_i32b (as_i64 u)) eqn:E; [|discriminate].
  injection H as <-. apply in_i32b_iff in E. destruct (i64_inv u _ Hu eq_refl) as (_ & H). split; assumption.
Qed.
Lemma u32_inv u x : 0 <= u < 2^64 -> dec_u32 strict u = Some x -> uint32_v x u.
Proof. intros Hu H. unfold dec_u32 in H. cbn [strict strict_u32] in H. destruct (u <? 2^32) eqn:E; [|discriminate]. injection H as <-. unfold uint32_v, in_u32. lia. Qed.
Lemma unzig_inv u : 0 <= u -> (0 <= unzigzag u -> u = 2 * unzigzag u) /\ (unzigzag u < 0 -> u = - 2 * unzigzag u - 1).
Proof.
  intros Hu. unfold unzigzag. destruct (Z.even u) eqn:E.
  - apply Z.even_spec in E as (k & ->). rewrite (Z.mul_comm 2 k), Z.div_mul by lia. lia.
  - assert (O : Z.odd u = true) by (rewrite <- Z.negb_even, E; reflexivity). apply Z.odd_spec in O as (k & ->).
    replace (2 * k + 1 + 1) with ((k + 1) * 2) by lia. rewrite Z.div_mul by lia. lia.
Qed.
Lemma s64_inv u x : 0 <= u < 2^64 -> dec_s64 strict u = Some x -> sint64_v x u.
Proof. intros Hu H. injection H as <-. pose proof (unzig_inv u ltac:(lia)). unfold sint64_v, in_i64. lia. Qed.
Lemma s32_inv u x : 0 <= u < 2^64 -> dec_s32 strict u = Some x -> sint32_v x u.
Proof.
  intros Hu H. unfold dec_s32 in H. destruct (dec_u32 strict u) as [w|] eqn:E; [|discriminate]. injection H as <-.
  apply u32_inv in E as (E & ->); [|exact Hu]. unfold in_u32 in E. pose proof (unzig_inv w ltac:(lia)). unfold sint32_v, in_i32. lia.
Qed.
Lemma bool_inv u x : 0 <= u < 2^64 -> dec_bool strict u = Some x -> bool_v x u.
Proof. intros Hu H. injection H as <-. unfold bool_v. split; [exact Hu|]. destruct (u =? 0) eqn:E; cbn; split; intros; try discriminate; lia. Qed.

(** ** Folding over the fields of one number *)

Section Typed.
Context (n : Z).

Lemma typed_sound ws fs : Forall sound fs -> Forall (fun f => sound f /\ fst f / 8 = n /\ In (fst f mod 8) ws) (typed n ws fs).
Proof.
  intros H. apply Forall_forall. intros f Hf. apply filter_In in Hf as (Hi & Hc). rewrite Forall_forall in H.
  apply andb_true_iff in Hc as (H1 & H2). apply existsb_exists in H2 as (w & Hw & E). split; [now apply H|]. split; [lia|].
  replace (fst f mod 8) with w by lia. exact Hw.
Qed.
Lemma tag_is (t w : Z) : t / 8 = n -> t mod 8 = w -> t = 8 * n + w.
Proof. intros H1 H2. pose proof (Z.div_mod t 8 ltac:(lia)). lia. Qed.

(** A field of the wire type for numbers, or for bytes. *)
Lemma typed_var fs : Forall sound fs -> Forall (fun f => exists u, f = (8 * n, WVar u) /\ 0 <= u < 2^64) (typed n [0] fs).
Proof.
  intros H. eapply Forall_impl; [|exact (typed_sound [0] fs H)]. intros [t w] (H1 & H2 & [H3|[]]). cbn [fst] in *. unfold sound in H1. cbn [fst snd] in H1.
  destruct w as [u|b|b|b|]; try lia. exists u. split; [|tauto]. f_equal. rewrite (tag_is t 0); lia.
Qed.
Lemma typed_len fs : Forall sound fs -> Forall (fun f => exists b, f = (8 * n + 2, WLen b) /\ Forall byte b) (typed n [2] fs).
Proof.
  intros H. eapply Forall_impl; [|exact (typed_sound [2] fs H)]. intros [t w] (H1 & H2 & [H3|[]]). cbn [fst] in *. unfold sound in H1. cbn [fst snd] in H1.
  destruct w as [u|b|b|b|]; try lia. exists b. split; [|tauto]. f_equal. apply tag_is; lia.
Qed.
End Typed.

Section Folds.
Context {M : Type} (step : M -> field -> option M) (n : Z).

Lemma inv_scalar {A} (val : A -> Z -> Prop) (dec : pbrt -> Z -> option A) (set : A -> M -> M) (upd : option A -> M) fs m m' :
  others_ignored step n [0] ->
  (forall m u, step m (8 * n, WVar u) = on_var (dec strict) (fun x => set x m) (WVar u)) ->
  (forall u x, 0 <= u < 2^64 -> dec strict u = Some x -> val x u) -> (forall x y m, set x (set y m) = set x m) ->
  upd None = m -> (forall x, upd (Some x) = set x m) ->
  Forall sound fs -> fold_opt step m (numbered n fs) = Some m' -> exists o, scalar n val o fs /\ m' = upd o.
Proof.
  intros Ho Hs Hd Hset U0 U1 Hf H. rewrite (fold_typed step n [0] fs Ho) in H. apply (typed_var n) in Hf. unfold scalar.
  revert m' H. induction (typed n [0] fs) as [|f l IH] using rev_ind; intros m' H; [exists None; split; [reflexivity|]; injection H as <-; congruence|].
  apply Forall_app in Hf as (Hl & Hf). inversion Hf as [|? ? (u & -> & Hu) _]; subst.
  rewrite fold_opt_app in H. destruct (fold_opt step (upd None) l) as [m1|] eqn:E; [|discriminate]. cbn [opt_bind fold_opt] in H.
  rewrite Hs in H. cbn [on_var] in H. destruct (dec strict u) as [x|] eqn:Ed; [|discriminate]. cbn [opt_map opt_bind] in H. injection H as <-.
  exists (Some x). specialize (Hd u x Hu Ed) as Hv.
  assert (K : Forall (fun f => exists y u', f = (8 * n, WVar u') /\ val y u') l /\ (m1 = upd None \/ exists y, m1 = upd (Some y))).
  { destruct (IH Hl m1 eq_refl) as ([y|] & Hx & ->).
    - destruct Hx as (pre & u' & -> & Hy & Hp). split; [|right; now exists y]. apply Forall_app. split; [exact Hp|].
      constructor; [|constructor]. exists y, u'. split; [reflexivity|exact Hy].
    - rewrite Hx. split; [constructor|now left]. }
  destruct K as (K1 & K2). split.
  - exists l, u. split; [reflexivity|]. split; assumption.
  - rewrite U1. destruct K2 as [->|(y & ->)]; [reflexivity|]. rewrite U1. apply Hset.
Qed.

Lemma inv_blob {A} (val : A -> bytes -> Prop) (dec : bytes -> option A) (set : A -> M -> M) (upd : option A -> M) fs m m' :
  others_ignored step n [2] ->
  (forall m b, step m (8 * n + 2, WLen b) = on_len dec (fun x => set x m) (WLen b)) ->
  (forall b x, dec b = Some x -> val x b) -> (forall x y m, set x (set y m) = set x m) ->
  upd None = m -> (forall x, upd (Some x) = set x m) ->
  Forall sound fs -> fold_opt step m (numbered n fs) = Some m' -> exists o, blob_field n val o fs /\ m' = upd o.
Proof.
  intros Ho Hs Hd Hset U0 U1 Hf H. rewrite (fold_typed step n [2] fs Ho) in H. apply (typed_len n) in Hf. unfold blob_field.
  revert m' H. induction (typed n [2] fs) as [|f l IH] using rev_ind; intros m' H; [exists None; split; [reflexivity|]; injection H as <-; congruence|].
  apply Forall_app in Hf as (Hl & Hf). inversion Hf as [|? ? (u & -> & Hu) _]; subst.
  rewrite fold_opt_app in H. destruct (fold_opt step (upd None) l) as [m1|] eqn:E; [|discriminate]. cbn [opt_bind fold_opt] in H.
  rewrite Hs in H. cbn [on_len] in H. destruct (dec u) as [x|] eqn:Ed; [|discriminate]. cbn [opt_map opt_bind] in H. injection H as <-.
  exists (Some x). specialize (Hd u x Ed) as Hv.
  assert (K : Forall (fun f => exists y u', f = (8 * n + 2, WLen u') /\ val y u') l /\ (m1 = upd None \/ exists y, m1 = upd (Some y))).
  { destruct (IH Hl m1 eq_refl) as ([y|] & Hx & ->).
    - destruct Hx as (pre & u' & -> & Hy & Hp). split; [|right; now exists y]. apply Forall_app. split; [exact Hp|].
      constructor; [|constructor]. exists y, u'. split; [reflexivity|exact Hy].
    - rewrite Hx. split; [constructor|now left]. }
  destruct K as (K1 & K2). split.
  - exists l, u. split; [reflexivity|]. split; assumption.
  - rewrite U1. destruct K2 as [->|(y & ->)]; [reflexivity|]. rewrite U1. apply Hset.
Qed.

Lemma inv_column {A} (val : A -> Z -> Prop) (dec : pbrt -> Z -> option A) (add : list A -> M -> M) fs m m' :
  others_ignored step n [0; 2] ->
  (forall m u, step m (8 * n, WVar u) = on_var (dec strict) (fun x => add [x] m) (WVar u)) ->
  (forall m b, step m (8 * n + 2, WLen b) = on_len (packed strict dec) (fun x => add x m) (WLen b)) ->
  (forall u x, 0 <= u < 2^64 -> dec strict u = Some x -> val x u) ->
  (forall x y m, add y (add x m) = add (x ++ y) m) -> (forall m, add [] m = m) ->
  Forall sound fs -> fold_opt step m (numbered n fs) = Some m' -> exists l, repeated n val l fs /\ m' = add l m.
Proof.
  intros Ho H1 H2 Hd Hadd H0 Hf H. rewrite (fold_typed step n [0; 2] fs Ho) in H. apply (typed_sound n [0; 2]) in Hf. unfold repeated.
  revert m H. induction Hf as [|[t w] gs (F1 & F2 & F3) _ IH]; intros m H; cbn [fold_opt] in H.
  - injection H as <-. exists []. split; [constructor|now rewrite H0].
  - cbn [fst snd] in *. unfold sound in F1. cbn [fst snd] in F1. destruct w as [u|b|b|b|]; try (destruct F3 as [F3|[F3|[]]]; lia).
    + destruct F1 as (F1 & Hu). assert (t = 8 * n) as -> by (rewrite (tag_is n t 0); lia). rewrite H1 in H. cbn [on_var] in H.
      destruct (dec strict u) as [x|] eqn:Ed; [|discriminate]. cbn [opt_map opt_bind] in H.
      destruct (IH _ H) as (l & C & ->). exists (x :: l). split; [constructor; auto|]. now rewrite Hadd.
    + destruct F1 as (F1 & Hb). assert (t = 8 * n + 2) as -> by (apply tag_is; lia). rewrite H2 in H. cbn [on_len] in H.
      destruct (packed strict dec b) as [x|] eqn:Ed; [|discriminate]. cbn [opt_map opt_bind] in H.
      destruct (IH _ H) as (l & C & ->). destruct (packed_inv dec val b x Hd Hb Ed) as (us & bss & P1 & P2 & ->).
      exists (x ++ l). split; [eapply cf_packed; eassumption|]. now rewrite Hadd.
Qed.

Lemma inv_sub {S} (sub : S -> field -> option S) (d : S) (enc : S -> list field -> Prop) (get : M -> option S) (set : S -> M -> M) (upd : option S -> M) fs m m' :
  others_ignored step n [2] ->
  (forall m b, step m (8 * n + 2, WLen b) = on_len (merge_opt strict sub d (get m)) (fun x => set x m) (WLen b)) ->
  (forall x m, get (set x m) = Some x) -> (forall x y m, set x (set y m) = set x m) ->
  (forall gs x, Forall sound gs -> fold_opt sub d gs = Some x -> enc x gs) -> upd None = m -> get m = None ->
  (forall x, upd (Some x) = set x m) ->
  Forall sound fs -> fold_opt step m (numbered n fs) = Some m' -> exists o, submessage n enc o fs /\ m' = upd o.
Proof.
  intros Ho Hs Hg Hset Henc U0 H0 U1 Hf H. rewrite (fold_typed step n [2] fs Ho) in H. apply (typed_len n) in Hf. unfold submessage.
  assert (K : typed n [2] fs = [] /\ m' = m \/ exists parts bss x, parts <> [] /\ Forall2 message_bytes parts bss /\ Forall (Forall sound) parts /\
    typed n [2] fs = map (fun b => (8 * n + 2, WLen b)) bss /\ fold_opt sub d (concat parts) = Some x /\ m' = set x m).
  { revert m' H. induction (typed n [2] fs) as [|f l IH] using rev_ind; intros m' H; [left; split; [reflexivity|]; injection H as <-; reflexivity|]. right.
    apply Forall_app in Hf as (Hl & Hf). inversion Hf as [|? ? (b & -> & Hb) _]; subst.
    rewrite fold_opt_app in H. destruct (fold_opt step (upd None) l) as [m1|] eqn:E; [|discriminate]. cbn [opt_bind fold_opt] in H.
    rewrite Hs in H. cbn [on_len] in H. unfold merge_opt, merge in H. destruct (fields strict b) as [p|] eqn:Ep; [|discriminate]. cbn [opt_bind] in H.
    destruct (fields_inv b p Hb Ep) as (Mp & Sp). destruct (fold_opt sub (unwrap_or (get m1) d) p) as [x|] eqn:Ex; [|discriminate].
    cbn [opt_map opt_bind] in H. injection H as <-.
    destruct (IH Hl m1 eq_refl) as [(-> & ->)|(parts & bss & y & P1 & P2 & P3 & -> & P4 & ->)].
    - rewrite H0 in Ex. cbn [unwrap_or] in Ex. exists [p], [b], x. repeat split; try discriminate; try reflexivity.
      + constructor; [exact Mp|constructor].
      + constructor; [exact Sp|constructor].
      + cbn [concat]. now rewrite app_nil_r.
    - rewrite Hg in Ex. cbn [unwrap_or] in Ex. exists (parts ++ [p]), (bss ++ [b]), x. split; [now destruct parts|]. split; [|split; [|split; [|split]]].
      + apply Forall2_app; [exact P2|]. constructor; [exact Mp|constructor].
      + apply Forall_app. split; [exact P3|]. constructor; [exact Sp|constructor].
      + now rewrite map_app.
      + rewrite concat_app. cbn [concat]. rewrite app_nil_r, fold_opt_app, P4. exact Ex.
      + apply Hset. }
  destruct K as [(E & ->)|(parts & bss & x & P1 & P2 & P3 & E & P4 & ->)].
  - exists None. split; [exact E|congruence].
  - exists (Some x). split; [|now rewrite U1]. exists parts, bss. split; [exact P1|]. split; [exact P2|]. split; [exact E|].
    apply Henc; [|exact P4]. clear -P3. induction P3; cbn [concat]; [constructor|]. apply Forall_app. split; assumption.
Qed.

Lemma inv_reps {S} (sub : S -> field -> option S) (d : S) (enc : S -> list field -> Prop) (add : list S -> M -> M) fs m m' :
  others_ignored step n [2] ->
  (forall m b, step m (8 * n + 2, WLen b) = on_len (merge strict sub d) (fun x => add [x] m) (WLen b)) ->
  (forall x y m, add y (add x m) = add (x ++ y) m) -> (forall m, add [] m = m) ->
  (forall gs x, Forall sound gs -> fold_opt sub d gs = Some x -> enc x gs) ->
  Forall sound fs -> fold_opt step m (numbered n fs) = Some m' -> exists l, repeated_message n enc l fs /\ m' = add l m.
Proof.
  intros Ho Hs Hadd H0 Henc Hf H. rewrite (fold_typed step n [2] fs Ho) in H. apply (typed_len n) in Hf. unfold repeated_message.
  revert m H. induction Hf as [|f gs (b & -> & Hb) _ IH]; intros m H; cbn [fold_opt] in H.
  - injection H as <-. exists []. split; [exists []; split; [reflexivity|constructor]|now rewrite H0].
  - rewrite Hs in H. cbn [on_len] in H. unfold merge in H. destruct (fields strict b) as [p|] eqn:Ep; [|discriminate]. cbn [opt_bind] in H.
    destruct (fields_inv b p Hb Ep) as (Mp & Sp). destruct (fold_opt sub d p) as [x|] eqn:Ex; [|discriminate]. cbn [opt_map opt_bind] in H.
    destruct (IH _ H) as (l & (bss & E & F) & ->). exists (x :: l). split; [|now rewrite Hadd].
    exists (b :: bss). split; [cbn [map]; now rewrite E|]. constructor; [|exact F]. exists p. split; [exact Mp|now apply Henc].
Qed.
End Folds.

Lemma inv_seq {M} (step : M -> field -> option M) a b m m' : fold_opt step m (a ++ b) = Some m' ->
  exists m1, fold_opt step m a = Some m1 /\ fold_opt step m1 b = Some m'.
Proof. rewrite fold_opt_app. destruct (fold_opt step m a) as [m1|]; [|discriminate]. intros H. now exists m1. Qed.

(** ** The messages *)

Lemma cs_inv fs m : Forall sound fs -> fold_opt (cs_step strict) None fs = Some m -> change_set_enc m fs.
Proof.
  intros S H. rewrite (fold_by_numbers (cs_step strict) (cs_commutes strict) change_set_nums) in H; [|nodup|unk strict].
  cbn [change_set_nums flat_map] in H. rewrite app_nil_r in H.
  edestruct (inv_scalar (cs_step strict) 1 int64_v dec_i64 (fun x _ => Some x) (fun o => o) fs) as (x & G & E);
    [oth|reflexivity|apply i64_inv|reflexivity|reflexivity|reflexivity|exact S|exact H|]. now subst m.
Qed.
Lemma st_inv fs m : Forall sound fs -> fold_opt (st_step strict) [] fs = Some m -> strings_enc m fs.
Proof.
  intros S H. rewrite (fold_by_numbers (st_step strict) (st_commutes strict) strings_nums) in H; [|nodup|unk strict].
  cbn [strings_nums flat_map] in H. rewrite app_nil_r, (fold_typed _ 1 [2]) in H by oth. apply (typed_len 1) in S. unfold strings_enc, repeated_bytes.
  assert (K : exists l, m = [] ++ l /\ typed 1 [2] fs = map (fun b => (8 * 1 + 2, WLen b)) l).
  { revert H. generalize (@nil bytes). induction S as [|f gs (b & -> & Hb) _ IH]; intros acc H; cbn [fold_opt] in H.
    - injection H as <-. exists []. now rewrite app_nil_r.
    - change (st_step strict acc (8 * 1 + 2, WLen b)) with (Some (acc ++ [b])) in H. cbn [opt_bind] in H.
      destruct (IH _ H) as (l & -> & ->). exists (b :: l). now rewrite <- app_assoc. }
  destruct K as (l & -> & E). exact E.
Qed.
Lemma info_inv fs m : Forall sound fs -> fold_opt (info_step strict) info0 fs = Some m -> info_enc m fs.
Proof.
  intros S H. rewrite (fold_by_numbers (info_step strict) (info_commutes strict) info_nums) in H; [|nodup|unk strict].
  cbn [info_nums flat_map] in H. rewrite app_nil_r in H.
  apply inv_seq in H as (m0 & F0 & H).
  edestruct (inv_scalar (info_step strict) 1 int32_v dec_i32 (fun x m => Info (Some x) (i_timestamp m) (i_changeset m) (i_uid m) (i_user_sid m) (i_visible m)) (fun o => Info o None None None None None) fs) as (x0 & G0 & E0);
    [oth|intros []; reflexivity|apply i32_inv|reflexivity|reflexivity|reflexivity|exact S|exact F0|].
  subst m0. cbn [info0 i_version i_timestamp i_changeset i_uid i_user_sid i_visible app] in *.
  apply inv_seq in H as (m1 & F1 & H).
  edestruct (inv_scalar (info_step strict) 2 int64_v dec_i64 (fun x m => Info (i_version m) (Some x) (i_changeset m) (i_uid m) (i_user_sid m) (i_visible m)) (fun o => Info x0 o None None None None) fs) as (x1 & G1 & E1);
    [oth|intros []; reflexivity|apply i64_inv|reflexivity|reflexivity|reflexivity|exact S|exact F1|].
  subst m1. cbn [info0 i_version i_timestamp i_changeset i_uid i_user_sid i_visible app] in *.
  apply inv_seq in H as (m2 & F2 & H).
  edestruct (inv_scalar (info_step strict) 3 int64_v dec_i64 (fun x m => Info (i_version m) (i_timestamp m) (Some x) (i_uid m) (i_user_sid m) (i_visible m)) (fun o => Info x0 x1 o None None None) fs) as (x2 & G2 & E2);
    [oth|intros []; reflexivity|apply i64_inv|reflexivity|reflexivity|reflexivity|exact S|exact F2|].
  subst m2. cbn [info0 i_version i_timestamp i_changeset i_uid i_user_sid i_visible app] in *.
  apply inv_seq in H as (m3 & F3 & H).
  edestruct (inv_scalar (info_step strict) 4 int32_v dec_i32 (fun x m => Info (i_version m) (i_timestamp m) (i_changeset m) (Some x) (i_user_sid m) (i_visible m)) (fun o => Info x0 x1 x2 o None None) fs) as (x3 & G3 & E3);
    [oth|intros []; reflexivity|apply i32_inv|reflexivity|reflexivity|reflexivity|exact S|exact F3|].
  subst m3. cbn [info0 i_version i_timestamp i_changeset i_uid i_user_sid i_visible app] in *.
  apply inv_seq in H as (m4 & F4 & H).
  edestruct (inv_scalar (info_step strict) 5 uint32_v dec_u32 (fun x m => Info (i_version m) (i_timestamp m) (i_changeset m) (i_uid m) (Some x) (i_visible m)) (fun o => Info x0 x1 x2 x3 o None) fs) as (x4 & G4 & E4);
    [oth|intros []; reflexivity|apply u32_inv|reflexivity|reflexivity|reflexivity|exact S|exact F4|].
  subst m4. cbn [info0 i_version i_timestamp i_changeset i_uid i_user_sid i_visible app] in *.
  edestruct (inv_scalar (info_step strict) 6 bool_v dec_bool (fun x m => Info (i_version m) (i_timestamp m) (i_changeset m) (i_uid m) (i_user_sid m) (Some x)) (fun o => Info x0 x1 x2 x3 x4 o) fs) as (x5 & G5 & E5);
    [oth|intros []; reflexivity|apply bool_inv|reflexivity|reflexivity|reflexivity|exact S|exact H|].
  subst m. cbn [info0 i_version i_timestamp i_changeset i_uid i_user_sid i_visible app] in *.
  unfold info_enc. cbn [i_version i_timestamp i_changeset i_uid i_user_sid i_visible]. repeat match goal with |- _ /\ _ => split end; assumption.
Qed.
Lemma di_inv fs m : Forall sound fs -> fold_opt (di_step strict) di0 fs = Some m -> dense_info_enc m fs.
Proof.
  intros S H. rewrite (fold_by_numbers (di_step strict) (di_commutes strict) dense_info_nums) in H; [|nodup|unk strict].
  cbn [dense_info_nums flat_map] in H. rewrite app_nil_r in H.
  apply inv_seq in H as (m0 & F0 & H).
  edestruct (inv_column (di_step strict) 1 int32_v dec_i32 (fun x m => DenseInfo (di_version m ++ x) (di_timestamp m) (di_changeset m) (di_uid m) (di_user_sid m) (di_visible m)) fs) as (x0 & G0 & E0);
    [oth|intros []; reflexivity|intros []; reflexivity|apply i32_inv|intros x y []; cbn; now rewrite app_assoc|intros []; cbn; now rewrite app_nil_r|exact S|exact F0|].
  subst m0. cbn [di0 di_version di_timestamp di_changeset di_uid di_user_sid di_visible app] in *.
  apply inv_seq in H as (m1 & F1 & H).
  edestruct (inv_column (di_step strict) 2 sint64_v dec_s64 (fun x m => DenseInfo (di_version m) (di_timestamp m ++ x) (di_changeset m) (di_uid m) (di_user_sid m) (di_visible m)) fs) as (x1 & G1 & E1);
    [oth|intros []; reflexivity|intros []; reflexivity|apply s64_inv|intros x y []; cbn; now rewrite app_assoc|intros []; cbn; now rewrite app_nil_r|exact S|exact F1|].
  subst m1. cbn [di0 di_version di_timestamp di_changeset di_uid di_user_sid di_visible app] in *.
  apply inv_seq in H as (m2 & F2 & H).
  edestruct (inv_column (di_step strict) 3 sint64_v dec_s64 (fun x m => DenseInfo (di_version m) (di_timestamp m) (di_changeset m ++ x) (di_uid m) (di_user_sid m) (di_visible m)) fs) as (x2 & G2 & E2);
    [oth|intros []; reflexivity|intros []; reflexivity|apply s64_inv|intros x y []; cbn; now rewrite app_assoc|intros []; cbn; now rewrite app_nil_r|exact S|exact F2|].
  subst m2. cbn [di0 di_version di_timestamp di_changeset di_uid di_user_sid di_visible app] in *.
  apply inv_seq in H as (m3 & F3 & H).
  edestruct (inv_column (di_step strict) 4 sint32_v dec_s32 (fun x m => DenseInfo (di_version m) (di_timestamp m) (di_changeset m) (di_uid m ++ x) (di_user_sid m) (di_visible m)) fs) as (x3 & G3 & E3);
    [oth|intros []; reflexivity|intros []; reflexivity|apply s32_inv|intros x y []; cbn; now rewrite app_assoc|intros []; cbn; now rewrite app_nil_r|exact S|exact F3|].
  subst m3. cbn [di0 di_version di_timestamp di_changeset di_uid di_user_sid di_visible app] in *.
  apply inv_seq in H as (m4 & F4 & H).
  edestruct (inv_column (di_step strict) 5 sint32_v dec_s32 (fun x m => DenseInfo (di_version m) (di_timestamp m) (di_changeset m) (di_uid m) (di_user_sid m ++ x) (di_visible m)) fs) as (x4 & G4 & E4);
    [oth|intros []; reflexivity|intros []; reflexivity|apply s32_inv|intros x y []; cbn; now rewrite app_assoc|intros []; cbn; now rewrite app_nil_r|exact S|exact F4|].
  subst m4. cbn [di0 di_version di_timestamp di_changeset di_uid di_user_sid di_visible app] in *.
  edestruct (inv_column (di_step strict) 6 bool_v dec_bool (fun x m => DenseInfo (di_version m) (di_timestamp m) (di_changeset m) (di_uid m) (di_user_sid m) (di_visible m ++ x)) fs) as (x5 & G5 & E5);
    [oth|intros []; reflexivity|intros []; reflexivity|apply bool_inv|intros x y []; cbn; now rewrite app_assoc|intros []; cbn; now rewrite app_nil_r|exact S|exact H|].
  subst m. cbn [di0 di_version di_timestamp di_changeset di_uid di_user_sid di_visible app] in *.
  unfold dense_info_enc. cbn [di_version di_timestamp di_changeset di_uid di_user_sid di_visible]. repeat match goal with |- _ /\ _ => split end; assumption.
Qed.
Lemma pn_inv fs m : Forall sound fs -> fold_opt (pn_step strict) pn0 fs = Some m -> node_enc m fs.
Proof.
  intros S H. rewrite (fold_by_numbers (pn_step strict) (pn_commutes strict) node_nums) in H; [|nodup|unk strict].
  cbn [node_nums flat_map] in H. rewrite app_nil_r in H.
  apply inv_seq in H as (m0 & F0 & H).
  edestruct (inv_scalar (pn_step strict) 1 sint64_v dec_s64 (fun x m => PNode (Some x) (pn_keys m) (pn_vals m) (pn_info m) (pn_lat m) (pn_lon m)) (fun o => PNode o [] [] None None None) fs) as (x0 & G0 & E0);
    [oth|intros []; reflexivity|apply s64_inv|reflexivity|reflexivity|reflexivity|exact S|exact F0|].
  subst m0. cbn [pn0 pn_id pn_keys pn_vals pn_info pn_lat pn_lon app] in *.
  apply inv_seq in H as (m1 & F1 & H).
  edestruct (inv_column (pn_step strict) 2 uint32_v dec_u32 (fun x m => PNode (pn_id m) (pn_keys m ++ x) (pn_vals m) (pn_info m) (pn_lat m) (pn_lon m)) fs) as (x1 & G1 & E1);
    [oth|intros []; reflexivity|intros []; reflexivity|apply u32_inv|intros x y []; cbn; now rewrite app_assoc|intros []; cbn; now rewrite app_nil_r|exact S|exact F1|].
  subst m1. cbn [pn0 pn_id pn_keys pn_vals pn_info pn_lat pn_lon app] in *.
  apply inv_seq in H as (m2 & F2 & H).
  edestruct (inv_column (pn_step strict) 3 uint32_v dec_u32 (fun x m => PNode (pn_id m) (pn_keys m) (pn_vals m ++ x) (pn_info m) (pn_lat m) (pn_lon m)) fs) as (x2 & G2 & E2);
    [oth|intros []; reflexivity|intros []; reflexivity|apply u32_inv|intros x y []; cbn; now rewrite app_assoc|intros []; cbn; now rewrite app_nil_r|exact S|exact F2|].
  subst m2. cbn [pn0 pn_id pn_keys pn_vals pn_info pn_lat pn_lon app] in *.
  apply inv_seq in H as (m3 & F3 & H).
  edestruct (inv_sub (pn_step strict) 4 (info_step strict) info0 info_enc pn_info (fun x m => PNode (pn_id m) (pn_keys m) (pn_vals m) (Some x) (pn_lat m) (pn_lon m)) (fun o => PNode x0 x1 x2 o None None) fs) as (x3 & G3 & E3);
    [oth|intros []; reflexivity|reflexivity|reflexivity|apply info_inv|reflexivity|reflexivity|reflexivity|exact S|exact F3|].
  subst m3. cbn [pn0 pn_id pn_keys pn_vals pn_info pn_lat pn_lon app] in *.
  apply inv_seq in H as (m4 & F4 & H).
  edestruct (inv_scalar (pn_step strict) 8 sint64_v dec_s64 (fun x m => PNode (pn_id m) (pn_keys m) (pn_vals m) (pn_info m) (Some x) (pn_lon m)) (fun o => PNode x0 x1 x2 x3 o None) fs) as (x4 & G4 & E4);
    [oth|intros []; reflexivity|apply s64_inv|reflexivity|reflexivity|reflexivity|exact S|exact F4|].
  subst m4. cbn [pn0 pn_id pn_keys pn_vals pn_info pn_lat pn_lon app] in *.
  edestruct (inv_scalar (pn_step strict) 9 sint64_v dec_s64 (fun x m => PNode (pn_id m) (pn_keys m) (pn_vals m) (pn_info m) (pn_lat m) (Some x)) (fun o => PNode x0 x1 x2 x3 x4 o) fs) as (x5 & G5 & E5);
    [oth|intros []; reflexivity|apply s64_inv|reflexivity|reflexivity|reflexivity|exact S|exact H|].
  subst m. cbn [pn0 pn_id pn_keys pn_vals pn_info pn_lat pn_lon app] in *.
  unfold node_enc. cbn [pn_id pn_keys pn_vals pn_info pn_lat pn_lon]. repeat match goal with |- _ /\ _ => split end; assumption.
Qed.
Lemma dn_inv fs m : Forall sound fs -> fold_opt (dn_step strict) dn0 fs = Some m -> dense_enc m fs.
Proof.
  intros S H. rewrite (fold_by_numbers (dn_step strict) (dn_commutes strict) dense_nums) in H; [|nodup|unk strict].
  cbn [dense_nums flat_map] in H. rewrite app_nil_r in H.
  apply inv_seq in H as (m0 & F0 & H).
  edestruct (inv_column (dn_step strict) 1 sint64_v dec_s64 (fun x m => DenseNodes (dn_id m ++ x) (dn_info m) (dn_lat m) (dn_lon m) (dn_keys_vals m)) fs) as (x0 & G0 & E0);
    [oth|intros []; reflexivity|intros []; reflexivity|apply s64_inv|intros x y []; cbn; now rewrite app_assoc|intros []; cbn; now rewrite app_nil_r|exact S|exact F0|].
  subst m0. cbn [dn0 dn_id dn_info dn_lat dn_lon dn_keys_vals app] in *.
  apply inv_seq in H as (m1 & F1 & H).
  edestruct (inv_sub (dn_step strict) 5 (di_step strict) di0 dense_info_enc dn_info (fun x m => DenseNodes (dn_id m) (Some x) (dn_lat m) (dn_lon m) (dn_keys_vals m)) (fun o => DenseNodes x0 o [] [] []) fs) as (x1 & G1 & E1);
    [oth|intros []; reflexivity|reflexivity|reflexivity|apply di_inv|reflexivity|reflexivity|reflexivity|exact S|exact F1|].
  subst m1. cbn [dn0 dn_id dn_info dn_lat dn_lon dn_keys_vals app] in *.
  apply inv_seq in H as (m2 & F2 & H).
  edestruct (inv_column (dn_step strict) 8 sint64_v dec_s64 (fun x m => DenseNodes (dn_id m) (dn_info m) (dn_lat m ++ x) (dn_lon m) (dn_keys_vals m)) fs) as (x2 & G2 & E2);
    [oth|intros []; reflexivity|intros []; reflexivity|apply s64_inv|intros x y []; cbn; now rewrite app_assoc|intros []; cbn; now rewrite app_nil_r|exact S|exact F2|].
  subst m2. cbn [dn0 dn_id dn_info dn_lat dn_lon dn_keys_vals app] in *.
  apply inv_seq in H as (m3 & F3 & H).
  edestruct (inv_column (dn_step strict) 9 sint64_v dec_s64 (fun x m => DenseNodes (dn_id m) (dn_info m) (dn_lat m) (dn_lon m ++ x) (dn_keys_vals m)) fs) as (x3 & G3 & E3);
    [oth|intros []; reflexivity|intros []; reflexivity|apply s64_inv|intros x y []; cbn; now rewrite app_assoc|intros []; cbn; now rewrite app_nil_r|exact S|exact F3|].
  subst m3. cbn [dn0 dn_id dn_info dn_lat dn_lon dn_keys_vals app] in *.
  edestruct (inv_column (dn_step strict) 10 int32_v dec_i32 (fun x m => DenseNodes (dn_id m) (dn_info m) (dn_lat m) (dn_lon m) (dn_keys_vals m ++ x)) fs) as (x4 & G4 & E4);
    [oth|intros []; reflexivity|intros []; reflexivity|apply i32_inv|intros x y []; cbn; now rewrite app_assoc|intros []; cbn; now rewrite app_nil_r|exact S|exact H|].
  subst m. cbn [dn0 dn_id dn_info dn_lat dn_lon dn_keys_vals app] in *.
  unfold dense_enc. cbn [dn_id dn_info dn_lat dn_lon dn_keys_vals]. repeat match goal with |- _ /\ _ => split end; assumption.
Qed.
Lemma pw_inv fs m : Forall sound fs -> fold_opt (pw_step strict) pw0 fs = Some m -> way_enc m fs.
Proof.
  intros S H. rewrite (fold_by_numbers (pw_step strict) (pw_commutes strict) way_nums) in H; [|nodup|unk strict].
  cbn [way_nums flat_map] in H. rewrite app_nil_r in H.
  apply inv_seq in H as (m0 & F0 & H).
  edestruct (inv_scalar (pw_step strict) 1 int64_v dec_i64 (fun x m => PWay (Some x) (pw_keys m) (pw_vals m) (pw_info m) (pw_refs m)) (fun o => PWay o [] [] None []) fs) as (x0 & G0 & E0);
    [oth|intros []; reflexivity|apply i64_inv|reflexivity|reflexivity|reflexivity|exact S|exact F0|].
  subst m0. cbn [pw0 pw_id pw_keys pw_vals pw_info pw_refs app] in *.
  apply inv_seq in H as (m1 & F1 & H).
  edestruct (inv_column (pw_step strict) 2 uint32_v dec_u32 (fun x m => PWay (pw_id m) (pw_keys m ++ x) (pw_vals m) (pw_info m) (pw_refs m)) fs) as (x1 & G1 & E1);
    [oth|intros []; reflexivity|intros []; reflexivity|apply u32_inv|intros x y []; cbn; now rewrite app_assoc|intros []; cbn; now rewrite app_nil_r|exact S|exact F1|].
  subst m1. cbn [pw0 pw_id pw_keys pw_vals pw_info pw_refs app] in *.
  apply inv_seq in H as (m2 & F2 & H).
  edestruct (inv_column (pw_step strict) 3 uint32_v dec_u32 (fun x m => PWay (pw_id m) (pw_keys m) (pw_vals m ++ x) (pw_info m) (pw_refs m)) fs) as (x2 & G2 & E2);
    [oth|intros []; reflexivity|intros []; reflexivity|apply u32_inv|intros x y []; cbn; now rewrite app_assoc|intros []; cbn; now rewrite app_nil_r|exact S|exact F2|].
  subst m2. cbn [pw0 pw_id pw_keys pw_vals pw_info pw_refs app] in *.
  apply inv_seq in H as (m3 & F3 & H).
  edestruct (inv_sub (pw_step strict) 4 (info_step strict) info0 info_enc pw_info (fun x m => PWay (pw_id m) (pw_keys m) (pw_vals m) (Some x) (pw_refs m)) (fun o => PWay x0 x1 x2 o []) fs) as (x3 & G3 & E3);
    [oth|intros []; reflexivity|reflexivity|reflexivity|apply info_inv|reflexivity|reflexivity|reflexivity|exact S|exact F3|].
  subst m3. cbn [pw0 pw_id pw_keys pw_vals pw_info pw_refs app] in *.
  edestruct (inv_column (pw_step strict) 8 sint64_v dec_s64 (fun x m => PWay (pw_id m) (pw_keys m) (pw_vals m) (pw_info m) (pw_refs m ++ x)) fs) as (x4 & G4 & E4);
    [oth|intros []; reflexivity|intros []; reflexivity|apply s64_inv|intros x y []; cbn; now rewrite app_assoc|intros []; cbn; now rewrite app_nil_r|exact S|exact H|].
  subst m. cbn [pw0 pw_id pw_keys pw_vals pw_info pw_refs app] in *.
  unfold way_enc. cbn [pw_id pw_keys pw_vals pw_info pw_refs]. repeat match goal with |- _ /\ _ => split end; assumption.
Qed.
Lemma pr_inv fs m : Forall sound fs -> fold_opt (pr_step strict) pr0 fs = Some m -> rel_enc m fs.
Proof.
  intros S H. rewrite (fold_by_numbers (pr_step strict) (pr_commutes strict) rel_nums) in H; [|nodup|unk strict].
  cbn [rel_nums flat_map] in H. rewrite app_nil_r in H.
  apply inv_seq in H as (m0 & F0 & H).
  edestruct (inv_scalar (pr_step strict) 1 int64_v dec_i64 (fun x m => PRel (Some x) (pr_keys m) (pr_vals m) (pr_info m) (pr_roles m) (pr_memids m) (pr_types m)) (fun o => PRel o [] [] None [] [] []) fs) as (x0 & G0 & E0);
    [oth|intros []; reflexivity|apply i64_inv|reflexivity|reflexivity|reflexivity|exact S|exact F0|].
  subst m0. cbn [pr0 pr_id pr_keys pr_vals pr_info pr_roles pr_memids pr_types app] in *.
  apply inv_seq in H as (m1 & F1 & H).
  edestruct (inv_column (pr_step strict) 2 uint32_v dec_u32 (fun x m => PRel (pr_id m) (pr_keys m ++ x) (pr_vals m) (pr_info m) (pr_roles m) (pr_memids m) (pr_types m)) fs) as (x1 & G1 & E1);
    [oth|intros []; reflexivity|intros []; reflexivity|apply u32_inv|intros x y []; cbn; now rewrite app_assoc|intros []; cbn; now rewrite app_nil_r|exact S|exact F1|].
  subst m1. cbn [pr0 pr_id pr_keys pr_vals pr_info pr_roles pr_memids pr_types app] in *.
  apply inv_seq in H as (m2 & F2 & H).
  edestruct (inv_column (pr_step strict) 3 uint32_v dec_u32 (fun x m => PRel (pr_id m) (pr_keys m) (pr_vals m ++ x) (pr_info m) (pr_roles m) (pr_memids m) (pr_types m)) fs) as (x2 & G2 & E2);
    [oth|intros []; reflexivity|intros []; reflexivity|apply u32_inv|intros x y []; cbn; now rewrite app_assoc|intros []; cbn; now rewrite app_nil_r|exact S|exact F2|].
  subst m2. cbn [pr0 pr_id pr_keys pr_vals pr_info pr_roles pr_memids pr_types app] in *.
  apply inv_seq in H as (m3 & F3 & H).
  edestruct (inv_sub (pr_step strict) 4 (info_step strict) info0 info_enc pr_info (fun x m => PRel (pr_id m) (pr_keys m) (pr_vals m) (Some x) (pr_roles m) (pr_memids m) (pr_types m)) (fun o => PRel x0 x1 x2 o [] [] []) fs) as (x3 & G3 & E3);
    [oth|intros []; reflexivity|reflexivity|reflexivity|apply info_inv|reflexivity|reflexivity|reflexivity|exact S|exact F3|].
  subst m3. cbn [pr0 pr_id pr_keys pr_vals pr_info pr_roles pr_memids pr_types app] in *.
  apply inv_seq in H as (m4 & F4 & H).
  edestruct (inv_column (pr_step strict) 8 int32_v dec_i32 (fun x m => PRel (pr_id m) (pr_keys m) (pr_vals m) (pr_info m) (pr_roles m ++ x) (pr_memids m) (pr_types m)) fs) as (x4 & G4 & E4);
    [oth|intros []; reflexivity|intros []; reflexivity|apply i32_inv|intros x y []; cbn; now rewrite app_assoc|intros []; cbn; now rewrite app_nil_r|exact S|exact F4|].
  subst m4. cbn [pr0 pr_id pr_keys pr_vals pr_info pr_roles pr_memids pr_types app] in *.
  apply inv_seq in H as (m5 & F5 & H).
  edestruct (inv_column (pr_step strict) 9 sint64_v dec_s64 (fun x m => PRel (pr_id m) (pr_keys m) (pr_vals m) (pr_info m) (pr_roles m) (pr_memids m ++ x) (pr_types m)) fs) as (x5 & G5 & E5);
    [oth|intros []; reflexivity|intros []; reflexivity|apply s64_inv|intros x y []; cbn; now rewrite app_assoc|intros []; cbn; now rewrite app_nil_r|exact S|exact F5|].
  subst m5. cbn [pr0 pr_id pr_keys pr_vals pr_info pr_roles pr_memids pr_types app] in *.
  edestruct (inv_column (pr_step strict) 10 int32_v dec_i32 (fun x m => PRel (pr_id m) (pr_keys m) (pr_vals m) (pr_info m) (pr_roles m) (pr_memids m) (pr_types m ++ x)) fs) as (x6 & G6 & E6);
    [oth|intros []; reflexivity|intros []; reflexivity|apply i32_inv|intros x y []; cbn; now rewrite app_assoc|intros []; cbn; now rewrite app_nil_r|exact S|exact H|].
  subst m. cbn [pr0 pr_id pr_keys pr_vals pr_info pr_roles pr_memids pr_types app] in *.
  unfold rel_enc. cbn [pr_id pr_keys pr_vals pr_info pr_roles pr_memids pr_types]. repeat match goal with |- _ /\ _ => split end; assumption.
Qed.
Lemma pg_inv fs m : Forall sound fs -> fold_opt (pg_step strict) pg0 fs = Some m -> group_enc m fs.
Proof.
  intros S H. rewrite (fold_by_numbers (pg_step strict) (pg_commutes strict) group_nums) in H; [|nodup|unk strict].
  cbn [group_nums flat_map] in H. rewrite app_nil_r in H.
  apply inv_seq in H as (m0 & F0 & H).
  edestruct (inv_reps (pg_step strict) 1 (pn_step strict) pn0 node_enc (fun x m => PGroup (pg_nodes m ++ x) (pg_dense m) (pg_ways m) (pg_rels m) (pg_changesets m)) fs) as (x0 & G0 & E0);
    [oth|intros []; reflexivity|intros x y []; cbn; now rewrite app_assoc|intros []; cbn; now rewrite app_nil_r|apply pn_inv|exact S|exact F0|].
  subst m0. cbn [pg0 pg_nodes pg_dense pg_ways pg_rels pg_changesets app] in *.
  apply inv_seq in H as (m1 & F1 & H).
  edestruct (inv_sub (pg_step strict) 2 (dn_step strict) dn0 dense_enc pg_dense (fun x m => PGroup (pg_nodes m) (Some x) (pg_ways m) (pg_rels m) (pg_changesets m)) (fun o => PGroup x0 o [] [] []) fs) as (x1 & G1 & E1);
    [oth|intros []; reflexivity|reflexivity|reflexivity|apply dn_inv|reflexivity|reflexivity|reflexivity|exact S|exact F1|].
  subst m1. cbn [pg0 pg_nodes pg_dense pg_ways pg_rels pg_changesets app] in *.
  apply inv_seq in H as (m2 & F2 & H).
  edestruct (inv_reps (pg_step strict) 3 (pw_step strict) pw0 way_enc (fun x m => PGroup (pg_nodes m) (pg_dense m) (pg_ways m ++ x) (pg_rels m) (pg_changesets m)) fs) as (x2 & G2 & E2);
    [oth|intros []; reflexivity|intros x y []; cbn; now rewrite app_assoc|intros []; cbn; now rewrite app_nil_r|apply pw_inv|exact S|exact F2|].
  subst m2. cbn [pg0 pg_nodes pg_dense pg_ways pg_rels pg_changesets app] in *.
  apply inv_seq in H as (m3 & F3 & H).
  edestruct (inv_reps (pg_step strict) 4 (pr_step strict) pr0 rel_enc (fun x m => PGroup (pg_nodes m) (pg_dense m) (pg_ways m) (pg_rels m ++ x) (pg_changesets m)) fs) as (x3 & G3 & E3);
    [oth|intros []; reflexivity|intros x y []; cbn; now rewrite app_assoc|intros []; cbn; now rewrite app_nil_r|apply pr_inv|exact S|exact F3|].
  subst m3. cbn [pg0 pg_nodes pg_dense pg_ways pg_rels pg_changesets app] in *.
  edestruct (inv_reps (pg_step strict) 5 (cs_step strict) None change_set_enc (fun x m => PGroup (pg_nodes m) (pg_dense m) (pg_ways m) (pg_rels m) (pg_changesets m ++ x)) fs) as (x4 & G4 & E4);
    [oth|intros []; reflexivity|intros x y []; cbn; now rewrite app_assoc|intros []; cbn; now rewrite app_nil_r|apply cs_inv|exact S|exact H|].
  subst m. cbn [pg0 pg_nodes pg_dense pg_ways pg_rels pg_changesets app] in *.
  unfold group_enc. cbn [pg_nodes pg_dense pg_ways pg_rels pg_changesets]. repeat match goal with |- _ /\ _ => split end; assumption.
Qed.
Lemma pb_inv fs m : Forall sound fs -> fold_opt (pb_step strict) pb0 fs = Some m -> block_enc m fs.
Proof.
  intros S H. rewrite (fold_by_numbers (pb_step strict) (pb_commutes strict) block_nums) in H; [|nodup|unk strict].
  cbn [block_nums flat_map] in H. rewrite app_nil_r in H.
  apply inv_seq in H as (m0 & F0 & H).
  edestruct (inv_sub (pb_step strict) 1 (st_step strict) (@nil bytes) strings_enc pb_strings (fun x m => PBlock (Some x) (pb_groups m) (pb_granularity m) (pb_lat_offset m) (pb_lon_offset m) (pb_date_granularity m)) (fun o => PBlock o [] None None None None) fs) as (x0 & G0 & E0);
    [oth|intros []; reflexivity|reflexivity|reflexivity|apply st_inv|reflexivity|reflexivity|reflexivity|exact S|exact F0|].
  subst m0. cbn [pb0 pb_strings pb_groups pb_granularity pb_lat_offset pb_lon_offset pb_date_granularity app] in *.
  apply inv_seq in H as (m1 & F1 & H).
  edestruct (inv_reps (pb_step strict) 2 (pg_step strict) pg0 group_enc (fun x m => PBlock (pb_strings m) (pb_groups m ++ x) (pb_granularity m) (pb_lat_offset m) (pb_lon_offset m) (pb_date_granularity m)) fs) as (x1 & G1 & E1);
    [oth|intros []; reflexivity|intros x y []; cbn; now rewrite app_assoc|intros []; cbn; now rewrite app_nil_r|apply pg_inv|exact S|exact F1|].
  subst m1. cbn [pb0 pb_strings pb_groups pb_granularity pb_lat_offset pb_lon_offset pb_date_granularity app] in *.
  apply inv_seq in H as (m2 & F2 & H).
  edestruct (inv_scalar (pb_step strict) 17 int32_v dec_i32 (fun x m => PBlock (pb_strings m) (pb_groups m) (Some x) (pb_lat_offset m) (pb_lon_offset m) (pb_date_granularity m)) (fun o => PBlock x0 x1 o None None None) fs) as (x2 & G2 & E2);
    [oth|intros []; reflexivity|apply i32_inv|reflexivity|reflexivity|reflexivity|exact S|exact F2|].
  subst m2. cbn [pb0 pb_strings pb_groups pb_granularity pb_lat_offset pb_lon_offset pb_date_granularity app] in *.
  apply inv_seq in H as (m3 & F3 & H).
  edestruct (inv_scalar (pb_step strict) 18 int32_v dec_i32 (fun x m => PBlock (pb_strings m) (pb_groups m) (pb_granularity m) (pb_lat_offset m) (pb_lon_offset m) (Some x)) (fun o => PBlock x0 x1 x2 None None o) fs) as (x5 & G5 & E5);
    [oth|intros []; reflexivity|apply i32_inv|reflexivity|reflexivity|reflexivity|exact S|exact F3|].
  subst m3. cbn [pb0 pb_strings pb_groups pb_granularity pb_lat_offset pb_lon_offset pb_date_granularity app] in *.
  apply inv_seq in H as (m4 & F4 & H).
  edestruct (inv_scalar (pb_step strict) 19 int64_v dec_i64 (fun x m => PBlock (pb_strings m) (pb_groups m) (pb_granularity m) (Some x) (pb_lon_offset m) (pb_date_granularity m)) (fun o => PBlock x0 x1 x2 o None x5) fs) as (x3 & G3 & E3);
    [oth|intros []; reflexivity|apply i64_inv|reflexivity|reflexivity|reflexivity|exact S|exact F4|].
  subst m4. cbn [pb0 pb_strings pb_groups pb_granularity pb_lat_offset pb_lon_offset pb_date_granularity app] in *.
  edestruct (inv_scalar (pb_step strict) 20 int64_v dec_i64 (fun x m => PBlock (pb_strings m) (pb_groups m) (pb_granularity m) (pb_lat_offset m) (Some x) (pb_date_granularity m)) (fun o => PBlock x0 x1 x2 x3 o x5) fs) as (x4 & G4 & E4);
    [oth|intros []; reflexivity|apply i64_inv|reflexivity|reflexivity|reflexivity|exact S|exact H|].
  subst m. cbn [pb0 pb_strings pb_groups pb_granularity pb_lat_offset pb_lon_offset pb_date_granularity app] in *.
  unfold block_enc. cbn [pb_strings pb_groups pb_granularity pb_lat_offset pb_lon_offset pb_date_granularity]. repeat match goal with |- _ /\ _ => split end; assumption.
Qed.
Lemma bh_inv fs m : Forall sound fs -> fold_opt (bh_step strict) bh0 fs = Some m -> header_enc m fs.
Proof.
  intros S H. rewrite (fold_by_numbers (bh_step strict) (bh_commutes strict) header_nums) in H; [|nodup|unk strict].
  cbn [header_nums flat_map] in H. rewrite app_nil_r in H.
  apply inv_seq in H as (m0 & F0 & H).
  edestruct (inv_blob (bh_step strict) 1 (fun s b => valid_str s /\ b = utf8 s) utf8_decode (fun x m => BlobHeader (Some x) (bh_index m) (bh_datasize m)) (fun o => BlobHeader o None None) fs) as (x0 & G0 & E0);
    [oth|intros []; reflexivity|intros b y Hy; apply utf8_decode_inv in Hy; tauto|reflexivity|reflexivity|reflexivity|exact S|exact F0|].
  subst m0. cbn [bh0 bh_type bh_index bh_datasize app] in *.
  apply inv_seq in H as (m1 & F1 & H).
  edestruct (inv_blob (bh_step strict) 2 eq Some (fun x m => BlobHeader (bh_type m) (Some x) (bh_datasize m)) (fun o => BlobHeader x0 o None) fs) as (x1 & G1 & E1);
    [oth|intros []; reflexivity|intros b y Hy; injection Hy; congruence|reflexivity|reflexivity|reflexivity|exact S|exact F1|].
  subst m1. cbn [bh0 bh_type bh_index bh_datasize app] in *.
  edestruct (inv_scalar (bh_step strict) 3 int32_v dec_i32 (fun x m => BlobHeader (bh_type m) (bh_index m) (Some x)) (fun o => BlobHeader x0 x1 o) fs) as (x2 & G2 & E2);
    [oth|intros []; reflexivity|apply i32_inv|reflexivity|reflexivity|reflexivity|exact S|exact H|].
  subst m. cbn [bh0 bh_type bh_index bh_datasize app] in *.
  unfold header_enc. cbn [bh_type bh_index bh_datasize]. repeat match goal with |- _ /\ _ => split end; assumption.
Qed.
Lemma bl_inv fs m : Forall sound fs -> fold_opt (bl_step strict) bl0 fs = Some m -> blob_enc m fs.
Proof.
  intros S H. rewrite (fold_by_numbers (bl_step strict) (bl_commutes strict) blob_nums) in H; [|nodup|unk strict].
  cbn [blob_nums flat_map] in H. rewrite app_nil_r in H.
  apply inv_seq in H as (m0 & F0 & H).
  edestruct (inv_blob (bl_step strict) 1 eq Some (fun x m => Blob (Some x) (bl_raw_size m) (bl_zlib m) (bl_lzma m) (bl_bzip2 m)) (fun o => Blob o None None None None) fs) as (x0 & G0 & E0);
    [oth|intros []; reflexivity|intros b y Hy; injection Hy; congruence|reflexivity|reflexivity|reflexivity|exact S|exact F0|].
  subst m0. cbn [bl0 bl_raw bl_raw_size bl_zlib bl_lzma bl_bzip2 app] in *.
  apply inv_seq in H as (m1 & F1 & H).
  edestruct (inv_scalar (bl_step strict) 2 int32_v dec_i32 (fun x m => Blob (bl_raw m) (Some x) (bl_zlib m) (bl_lzma m) (bl_bzip2 m)) (fun o => Blob x0 o None None None) fs) as (x1 & G1 & E1);
    [oth|intros []; reflexivity|apply i32_inv|reflexivity|reflexivity|reflexivity|exact S|exact F1|].
  subst m1. cbn [bl0 bl_raw bl_raw_size bl_zlib bl_lzma bl_bzip2 app] in *.
  apply inv_seq in H as (m2 & F2 & H).
  edestruct (inv_blob (bl_step strict) 3 eq Some (fun x m => Blob (bl_raw m) (bl_raw_size m) (Some x) (bl_lzma m) (bl_bzip2 m)) (fun o => Blob x0 x1 o None None) fs) as (x2 & G2 & E2);
    [oth|intros []; reflexivity|intros b y Hy; injection Hy; congruence|reflexivity|reflexivity|reflexivity|exact S|exact F2|].
  subst m2. cbn [bl0 bl_raw bl_raw_size bl_zlib bl_lzma bl_bzip2 app] in *.
  apply inv_seq in H as (m3 & F3 & H).
  edestruct (inv_blob (bl_step strict) 4 eq Some (fun x m => Blob (bl_raw m) (bl_raw_size m) (bl_zlib m) (Some x) (bl_bzip2 m)) (fun o => Blob x0 x1 x2 o None) fs) as (x3 & G3 & E3);
    [oth|intros []; reflexivity|intros b y Hy; injection Hy; congruence|reflexivity|reflexivity|reflexivity|exact S|exact F3|].
  subst m3. cbn [bl0 bl_raw bl_raw_size bl_zlib bl_lzma bl_bzip2 app] in *.
  edestruct (inv_blob (bl_step strict) 5 eq Some (fun x m => Blob (bl_raw m) (bl_raw_size m) (bl_zlib m) (bl_lzma m) (Some x)) (fun o => Blob x0 x1 x2 x3 o) fs) as (x4 & G4 & E4);
    [oth|intros []; reflexivity|intros b y Hy; injection Hy; congruence|reflexivity|reflexivity|reflexivity|exact S|exact H|].
  subst m. cbn [bl0 bl_raw bl_raw_size bl_zlib bl_lzma bl_bzip2 app] in *.
  unfold blob_enc. cbn [bl_raw bl_raw_size bl_zlib bl_lzma bl_bzip2]. repeat match goal with |- _ /\ _ => split end; assumption.
Qed.

(** ** Parsing is exact *)

Lemma merge_inv {M} (step : M -> field -> option M) d bs m : Forall byte bs -> merge strict step d bs = Some m ->
  exists fs, message_bytes fs bs /\ Forall sound fs /\ fold_opt step d fs = Some m.
Proof.
  intros Hb H. unfold merge in H. destruct (fields strict bs) as [fs|] eqn:E; [|discriminate]. exists fs.
  destruct (fields_inv bs fs Hb E). split; [assumption|]. split; assumption.
Qed.

Lemma parse_header_iff bs m : Forall byte bs ->
  (parse_header strict bs = Some m <-> exists fs, message_bytes fs bs /\ header_enc m fs /\ header_complete m).
Proof.
  intros Hb. split.
  - unfold parse_header, checked_init. destruct (merge strict (bh_step strict) bh0 bs) as [m'|] eqn:E; [|discriminate].
    destruct (bh_init m') eqn:Ei; [|discriminate]. intros H. injection H as <-. apply merge_inv in E as (fs & H1 & H2 & H3); [|exact Hb].
    exists fs. split; [exact H1|]. split; [now apply bh_inv|now apply header_init].
  - intros (fs & H1 & H2 & H3). exact (proj1 (proj1 (C74_any_encoding strict fs bs H1) m H2) H3).
Qed.
Lemma parse_blob_iff bs m : Forall byte bs ->
  (parse_blob strict bs = Some m <-> exists fs, message_bytes fs bs /\ blob_enc m fs).
Proof.
  intros Hb. split.
  - intros E. apply merge_inv in E as (fs & H1 & H2 & H3); [|exact Hb]. exists fs. split; [exact H1|now apply bl_inv].
  - intros (fs & H1 & H2). exact (proj1 (proj2 (C74_any_encoding strict fs bs H1)) m H2).
Qed.
Lemma parse_block_iff bs m : Forall byte bs ->
  (parse_block strict bs = Some m <-> exists fs, message_bytes fs bs /\ block_enc m fs /\ block_complete m).
Proof.
  intros Hb. split.
  - unfold parse_block, checked_init. destruct (merge strict (pb_step strict) pb0 bs) as [m'|] eqn:E; [|discriminate].
    destruct (pb_init m') eqn:Ei; [|discriminate]. intros H. injection H as <-. apply merge_inv in E as (fs & H1 & H2 & H3); [|exact Hb].
    exists fs. split; [exact H1|]. split; [now apply pb_inv|now apply block_init].
  - intros (fs & H1 & H2 & H3). exact (proj1 (proj2 (proj2 (C74_any_encoding strict fs bs H1)) m H2) H3).
Qed.
