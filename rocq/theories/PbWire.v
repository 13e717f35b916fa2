(** The protobuf wire format as read and written by rust-protobuf 3.7.2, the
    library under the generated code in src/stringpbf/{fileformat,osmformat}.rs
    and src/arcpbf/{fileformat,osmformat}.rs (the two copies are identical).

    Simplifications (trusted base): a length that runs beyond the enclosing data is
    an error; the limits on message size and recursion are not modelled. *)
From Coq Require Import String ZArith List Bool Lia.
From Verif Require Import Base.
Import ListNotations.
Open Scope Z_scope.

(** Choices of the library that the theorems do not depend on: whether a varint
    that does not fit the 32-bit type of its field is an error or is truncated,
    and whether excess bits in the tenth byte of a varint are an error or are
    dropped. *)
Record pbrt := Pbrt { strict_u32 : bool; strict_i32 : bool; strict_tenth : bool }.

(** ** Varints *)

(** [CodedInputStream::read_raw_varint64]: at most ten bytes, seven bits each,
    least significant first. *)
Fixpoint rv (rt : pbrt) (left : nat) (sh acc : Z) (bs : bytes) : option (Z * bytes) :=
  match left, bs with
  | O, _ => None
  | S _, [] => None
  | S l, b :: r =>
      if (Nat.eqb l 0) && strict_tenth rt && (1 <? b mod 128) then None
      else
        let acc' := acc + (b mod 128) * sh in
        if b <? 128 then Some (acc' mod 2^64, r) else rv rt l (sh * 128) acc' r
  end.
Definition read_varint (rt : pbrt) (bs : bytes) : option (Z * bytes) := rv rt 10 1 0 bs.

(** [CodedOutputStream::write_raw_varint64]. *)
Fixpoint wv (fuel : nat) (v : Z) : bytes :=
  match fuel with
  | O => []
  | S f => if v <? 128 then [v] else (v mod 128 + 128) :: wv f (v / 128)
  end.
Definition varint (v : Z) : bytes := wv 10 v.

(** ** Scalar types: value of a field given the varint read, and back *)

(** read_uint32 / write_uint32; also the field tags. *)
Definition dec_u32 (rt : pbrt) (u : Z) : option Z :=
  if u <? 2^32 then Some u else if strict_u32 rt then None else Some (as_u32 u).
Definition enc_u32 (v : Z) : Z := v.
(** read_int64 / write_int64. *)
Definition dec_i64 (rt : pbrt) (u : Z) : option Z := Some (as_i64 u).
Definition enc_i64 (v : Z) : Z := as_u64 v.
(** read_int32 / write_int32 (sign-extended to 64 bits on the wire). *)
Definition dec_i32 (rt : pbrt) (u : Z) : option Z :=
  let v := as_i64 u in
  if in_i32b v then Some v else if strict_i32 rt then None else Some (as_i32 v).
Definition enc_i32 (v : Z) : Z := as_u64 v.
(** read_sint64 / write_sint64 (zig-zag). *)
Definition unzigzag (u : Z) : Z := if Z.even u then u / 2 else - ((u + 1) / 2).
Definition zigzag (v : Z) : Z := if 0 <=? v then 2 * v else - 2 * v - 1.
Definition dec_s64 (rt : pbrt) (u : Z) : option Z := Some (unzigzag u).
Definition enc_s64 (v : Z) : Z := zigzag v.
(** read_sint32 / write_sint32. *)
Definition dec_s32 (rt : pbrt) (u : Z) : option Z := opt_map unzigzag (dec_u32 rt u).
Definition enc_s32 (v : Z) : Z := zigzag v.
(** read_bool / write_bool. *)
Definition dec_bool (rt : pbrt) (u : Z) : option bool := Some (negb (u =? 0)).
Definition enc_bool (b : bool) : Z := if b then 1 else 0.

(** ** Fields *)

(** The value of a field by wire type (0, 1, 2, 5).  Of a group (wire type 3, no longer
    in use) nothing is kept. *)
Inductive wval := WVar (v : Z) | WF64 (b : bytes) | WLen (b : bytes) | WF32 (b : bytes) | WGroup.
(** A field: its raw tag (field number * 8 + wire type) and its value. *)
Definition field : Type := Z * wval.

(** Exactly [n] bytes. *)
Definition take (n : Z) (bs : bytes) : option (bytes * bytes) :=
  if Z.of_nat (length bs) <? n then None
  else Some (firstn (Z.to_nat n) bs, skipn (Z.to_nat n) bs).

(** [read_raw_tag_or_eof] / [read_tag_unpack]: a tag; the field number 0 is an error. *)
Definition read_tag (rt : pbrt) (bs : bytes) : option (Z * bytes) :=
  match read_varint rt bs with
  | None => None
  | Some (u, r) =>
      match dec_u32 rt u with
      | None => None
      | Some t => if t / 8 =? 0 then None else Some (t, r)
      end
  end.

(** The value of a field that is not a group, as its wire type calls for
    ([read_unknown], [skip_field]); wire types 6 and 7 are errors. *)
Definition read_value (rt : pbrt) (t : Z) (r : bytes) : option (wval * bytes) :=
  if t mod 8 =? 0 then
    match read_varint rt r with Some (v, r') => Some (WVar v, r') | None => None end
  else if t mod 8 =? 1 then
    match take 8 r with Some (b, r') => Some (WF64 b, r') | None => None end
  else if t mod 8 =? 2 then
    match read_varint rt r with
    | Some (n, r') => match take n r' with Some (b, r'') => Some (WLen b, r'') | None => None end
    | None => None
    end
  else if t mod 8 =? 5 then
    match take 4 r with Some (b, r') => Some (WF32 b, r') | None => None end
  else None.

(** [CodedInputStream::skip_group] and [skip_field]: fields up to the end of the group
    (wire type 4, its number is not looked at), with groups inside groups.  Each step
    takes at least one byte, so the length of the input bounds their number. *)
Fixpoint skip_group (rt : pbrt) (fuel : nat) (bs : bytes) : option bytes :=
  match fuel with
  | O => None
  | S f =>
      match read_tag rt bs with
      | None => None
      | Some (t, r) =>
          if t mod 8 =? 4 then Some r
          else
            match (if t mod 8 =? 3 then skip_group rt f r else opt_map snd (read_value rt t r)) with
            | None => None
            | Some r' => skip_group rt f r'
            end
      end
  end.

(** One field: [read_raw_tag_or_eof] followed by the read the tag's wire type
    calls for.  The generated code matches on raw tags, so a known field is
    always read by its wire type; everything else goes through
    [read_unknown_or_skip_group], for which an end of group without start is an
    error. *)
Definition read_field (rt : pbrt) (bs : bytes) : option (field * bytes) :=
  match read_tag rt bs with
  | None => None
  | Some (t, r) =>
      if t mod 8 =? 3 then opt_map (fun r' => ((t, WGroup), r')) (skip_group rt (length r) r)
      else opt_map (fun p => ((t, fst p), snd p)) (read_value rt t r)
  end.

(** All fields of a message: the loop [while let Some(tag) = is.read_raw_tag_or_eof()?]
    of every generated [merge_from].  A field takes at least one byte, so the
    length of the input bounds the number of iterations. *)
Fixpoint fields_fuel (rt : pbrt) (fuel : nat) (bs : bytes) : option (list field) :=
  match bs with
  | [] => Some []
  | _ =>
      match fuel with
      | O => None
      | S f =>
          match read_field rt bs with
          | None => None
          | Some (fd, r) => opt_map (cons fd) (fields_fuel rt f r)
          end
      end
  end.
Definition fields (rt : pbrt) (bs : bytes) : option (list field) := fields_fuel rt (length bs) bs.

(** Writing a field: [write_tag] and then the value ([write_raw_varint64],
    [write_bytes], [write_message_field_with_cached_size], ...). *)
Definition ser_field (f : field) : bytes :=
  varint (fst f) ++
  match snd f with
  | WVar v => varint v
  | WLen b => varint (Z.of_nat (length b)) ++ b
  | WF64 b => b
  | WF32 b => b
  | WGroup => []  (* not reached: no group is ever written *)
  end.
Definition ser (fs : list field) : bytes := flat_map ser_field fs.

(** A left fold whose steps may fail. *)
Fixpoint fold_opt {A B} (f : A -> B -> option A) (a : A) (l : list B) : option A :=
  match l with
  | [] => Some a
  | b :: r => opt_bind (f a b) (fun a' => fold_opt f a' r)
  end.

(** A generated [merge_from]: [step] is the match on the tag, [init] the message
    merged into. *)
Definition merge {M} (rt : pbrt) (step : M -> field -> option M) (init : M) (bs : bytes) : option M :=
  opt_bind (fields rt bs) (fold_opt step init).

(** [read_repeated_packed_*_into]: varints up to the end of the payload. *)
Fixpoint packed_fuel {A} (rt : pbrt) (dec : Z -> option A) (fuel : nat) (bs : bytes) : option (list A) :=
  match bs with
  | [] => Some []
  | _ =>
      match fuel with
      | O => None
      | S f =>
          match read_varint rt bs with
          | None => None
          | Some (u, r) =>
              opt_bind (dec u) (fun v => opt_map (cons v) (packed_fuel rt dec f r))
          end
      end
  end.
Definition packed {A} (rt : pbrt) (dec : pbrt -> Z -> option A) (bs : bytes) : option (list A) :=
  packed_fuel rt (dec rt) (length bs) bs.

(** What the generated writers emit for a singular scalar, bytes or message
    field and for a packed repeated field ([n] is the field number). *)
Definition f_var {A} (n : Z) (enc : A -> Z) (o : option A) : list field :=
  match o with Some v => [(8 * n, WVar (enc v))] | None => [] end.
Definition f_len {A} (n : Z) (enc : A -> bytes) (o : option A) : list field :=
  match o with Some v => [(8 * n + 2, WLen (enc v))] | None => [] end.
Definition f_rep {A} (n : Z) (enc : A -> bytes) (l : list A) : list field :=
  map (fun v => (8 * n + 2, WLen (enc v))) l.
Definition f_packed {A} (n : Z) (enc : A -> Z) (l : list A) : list field :=
  match l with
  | [] => []
  | _ => [(8 * n + 2, WLen (flat_map (fun v => varint (enc v)) l))]
  end.

(** ** Facts *)

Lemma wv_len fuel v : (fuel <> 0 -> 1 <= length (wv fuel v))%nat.
Proof. destruct fuel; cbn; [easy|]. destruct (v <? 128); cbn; lia. Qed.

Lemma rv_wv rt n : forall sh acc v r, (1 <= n <= 10)%nat -> sh = 128 ^ (10 - Z.of_nat n) ->
  0 <= acc < sh -> 0 <= v -> acc + v * sh < 2^64 ->
  rv rt n sh acc (wv n v ++ r) = Some (acc + v * sh, r).
Proof.
  induction n as [|n IH]; intros sh acc v r Hn Hsh Hacc Hv Hb; [lia|].
  assert (Hs : 1 <= sh) by lia.
  cbn [wv]. destruct (v <? 128) eqn:E.
  - cbn [app rv]. rewrite (Z.mod_small v 128) by lia.
    replace (Nat.eqb n 0 && strict_tenth rt && (1 <? v)) with false.
    + rewrite E. rewrite Z.mod_small by nia. easy.
    + destruct (Nat.eqb n 0) eqn:E0; [|easy]. destruct (strict_tenth rt); [|easy].
      apply Nat.eqb_eq in E0. subst n. change (128 ^ (10 - Z.of_nat 1)) with (128^9) in Hsh.
      symmetry. apply Z.ltb_ge. change (2^64) with (2 * 128^9) in Hb. subst sh. nia.
  - cbn [app rv]. apply Z.ltb_ge in E.
    destruct (Nat.eqb n 0) eqn:E0.
    + apply Nat.eqb_eq in E0. subst n. change (128 ^ (10 - Z.of_nat 1)) with (128^9) in Hsh.
      change (2^64) with (2 * 128^9) in Hb. subst sh. nia.
    + cbn [andb]. apply Nat.eqb_neq in E0.
      assert (Hm : (v mod 128 + 128) mod 128 = v mod 128).
      { Z.div_mod_to_equations; lia. }
      rewrite Hm.
      replace (v mod 128 + 128 <? 128) with false by (symmetry; apply Z.ltb_ge; Z.div_mod_to_equations; lia).
      pose proof (Z.mod_pos_bound v 128 ltac:(lia)).
      assert (Hd : v = 128 * (v / 128) + v mod 128) by (apply Z.div_mod; lia).
      rewrite IH.
      * f_equal. f_equal. nia.
      * lia.
      * subst sh. replace (10 - Z.of_nat n) with (Z.succ (10 - Z.of_nat (S n))) by lia.
        rewrite Z.pow_succ_r by lia. lia.
      * nia.
      * apply Z.div_pos; lia.
      * nia.
Qed.

Lemma read_varint_ok rt v r : in_u64 v -> read_varint rt (varint v ++ r) = Some (v, r).
Proof.
  intros [H1 H2]. unfold read_varint, varint. rewrite rv_wv; try lia.
  f_equal. f_equal. lia.
Qed.

Lemma varint_nonempty v : varint v <> [].
Proof. unfold varint. pose proof (wv_len 10 v). intros E. rewrite E in H. cbn in H. lia. Qed.

Lemma rv_rest rt n : forall sh acc bs v r, rv rt n sh acc bs = Some (v, r) -> (length r < length bs)%nat.
Proof.
  induction n as [|n IH]; intros sh acc bs v r H; [easy|].
  destruct bs as [|b bs]; [easy|]. cbn [rv] in H.
  destruct (Nat.eqb n 0 && strict_tenth rt && (1 <? b mod 128)); [easy|].
  destruct (b <? 128).
  - injection H as <- <-. cbn. lia.
  - apply IH in H. cbn. lia.
Qed.

Lemma rv_range rt n : forall sh acc bs v r, rv rt n sh acc bs = Some (v, r) -> in_u64 v.
Proof.
  induction n as [|n IH]; intros sh acc bs v r H; [easy|].
  destruct bs as [|b bs]; [easy|]. cbn [rv] in H.
  destruct (Nat.eqb n 0 && strict_tenth rt && (1 <? b mod 128)); [easy|].
  destruct (b <? 128).
  - injection H as <- <-. unfold in_u64. apply Z.mod_pos_bound. lia.
  - eapply IH. exact H.
Qed.

(** Scalars survive. *)
Lemma u32_ok rt v : in_u32 v -> dec_u32 rt (enc_u32 v) = Some v.
Proof. unfold in_u32, dec_u32, enc_u32. intros H. replace (v <? 2^32) with true by lia. easy. Qed.
Lemma as_i64_u64 v : in_i64 v -> as_i64 (as_u64 v) = v.
Proof.
  unfold in_i64, as_i64, as_u64. intros H.
  destruct (Z_lt_le_dec v 0).
  - replace (v mod 2^64) with (v + 2^64).
    + replace (v + 2^64 + 2^63) with (v + 2^63 + 1 * 2^64) by lia. rewrite Z.mod_add by lia.
      rewrite Z.mod_small; lia.
    + symmetry. rewrite <- (Z.mod_add v 1) by lia. rewrite Z.mod_small; lia.
  - rewrite (Z.mod_small v) by lia. rewrite Z.mod_small; lia.
Qed.
Lemma i64_ok rt v : in_i64 v -> dec_i64 rt (enc_i64 v) = Some v.
Proof. intros H. unfold dec_i64, enc_i64. now rewrite as_i64_u64. Qed.
Lemma i32_ok rt v : in_i32 v -> dec_i32 rt (enc_i32 v) = Some v.
Proof.
  intros H. unfold dec_i32, enc_i32. rewrite as_i64_u64 by (unfold in_i32, in_i64 in *; lia).
  apply in_i32b_iff in H. now rewrite H.
Qed.
Lemma unzigzag_zigzag v : unzigzag (zigzag v) = v.
Proof.
  unfold unzigzag, zigzag. destruct (0 <=? v) eqn:E.
  - replace (Z.even (2 * v)) with true by (symmetry; rewrite Z.even_mul; easy).
    rewrite Z.mul_comm. rewrite Z.div_mul; lia.
  - replace (Z.even (-2 * v - 1)) with false.
    + replace (-2 * v - 1 + 1) with (- v * 2) by lia. rewrite Z.div_mul; lia.
    + symmetry. replace (-2 * v - 1) with (1 + 2 * (- v - 1)) by lia.
      rewrite Z.even_add_mul_2. easy.
Qed.
Lemma s64_ok rt v : in_i64 v -> dec_s64 rt (enc_s64 v) = Some v.
Proof. intros _. unfold dec_s64, enc_s64. now rewrite unzigzag_zigzag. Qed.
Lemma zigzag_i64 v : in_i64 v -> in_u64 (zigzag v).
Proof. unfold in_i64, in_u64, zigzag. intros H. destruct (0 <=? v) eqn:E; lia. Qed.
Lemma zigzag_i32 v : in_i32 v -> in_u32 (zigzag v).
Proof. unfold in_i32, in_u32, zigzag. intros H. destruct (0 <=? v) eqn:E; lia. Qed.
Lemma s32_ok rt v : in_i32 v -> dec_s32 rt (enc_s32 v) = Some v.
Proof.
  intros H. unfold dec_s32, enc_s32. apply zigzag_i32 in H.
  rewrite (u32_ok rt _ H : dec_u32 rt (zigzag v) = _). cbn. now rewrite unzigzag_zigzag.
Qed.
Lemma bool_ok rt b : dec_bool rt (enc_bool b) = Some b.
Proof. now destruct b. Qed.

(** Fields survive. *)
Definition wire_of (w : wval) : Z :=
  match w with WVar _ => 0 | WF64 _ => 1 | WLen _ => 2 | WF32 _ => 5 | WGroup => 3 end.
Definition wf_wval (w : wval) : Prop :=
  match w with
  | WVar v => in_u64 v
  | WF64 b => length b = 8%nat
  | WLen b => Z.of_nat (length b) < 2^32
  | WF32 b => length b = 4%nat
  | WGroup => False
  end.
(** A field as a writer may emit it: field number at least 1, tag of 32 bits,
    wire type matching the value. *)
Definition wf_field (f : field) : Prop :=
  8 <= fst f < 2^32 /\ fst f mod 8 = wire_of (snd f) /\ wf_wval (snd f).

Lemma take_app n b r : Z.of_nat (length b) = n -> take n (b ++ r) = Some (b, r).
Proof.
  intros <-. unfold take. rewrite app_length.
  replace (Z.of_nat (length b + length r) <? Z.of_nat (length b)) with false by lia.
  rewrite Nat2Z.id. rewrite firstn_app, skipn_app, Nat.sub_diag, firstn_all, skipn_all.
  cbn. now rewrite app_nil_r.
Qed.

Lemma take_inv n bs b r : take n bs = Some (b, r) -> bs = b ++ r.
Proof.
  unfold take. destruct (Z.of_nat (length bs) <? n); [easy|]. intros H. injection H as <- <-.
  symmetry. apply firstn_skipn.
Qed.

Lemma read_field_ok rt f r : wf_field f -> read_field rt (ser_field f ++ r) = Some (f, r).
Proof.
  destruct f as [t w]. unfold wf_field, ser_field, read_field, read_tag. cbn [fst snd].
  intros (Ht & Hw & Hv).
  rewrite <- app_assoc. rewrite read_varint_ok by (unfold in_u64; lia).
  rewrite (u32_ok rt t ltac:(unfold in_u32; lia) : dec_u32 rt t = Some t).
  replace (t / 8 =? 0) with false by (symmetry; apply Z.eqb_neq; Z.div_mod_to_equations; lia).
  unfold read_value. rewrite Hw. destruct w as [v|b|b|b|]; cbn [wire_of wf_wval] in *; [| | | |easy].
  - cbn [Z.eqb]. rewrite read_varint_ok by easy. easy.
  - cbn [Z.eqb Pos.eqb]. rewrite take_app by lia. easy.
  - cbn [Z.eqb Pos.eqb]. rewrite <- app_assoc. rewrite read_varint_ok by (unfold in_u64; lia).
    rewrite take_app by lia. easy.
  - cbn [Z.eqb Pos.eqb]. rewrite take_app by lia. easy.
Qed.

Lemma read_tag_rest rt bs t r : read_tag rt bs = Some (t, r) -> (length r < length bs)%nat.
Proof.
  unfold read_tag. destruct (read_varint rt bs) as [[u r0]|] eqn:E; [|easy].
  apply rv_rest in E. destruct (dec_u32 rt u) as [t0|]; [|easy].
  destruct (t0 / 8 =? 0); [easy|]. intros H. now injection H as <- <-.
Qed.

Lemma read_value_rest rt t bs v r : read_value rt t bs = Some (v, r) -> (length r <= length bs)%nat.
Proof.
  assert (T : forall n x b y, take n x = Some (b, y) -> (length y <= length x)%nat).
  { intros n x b y H. apply take_inv in H. subst x. rewrite app_length. lia. }
  unfold read_value. destruct (t mod 8 =? 0).
  { destruct (read_varint rt bs) as [[u r1]|] eqn:E1; [|easy]. intros H. injection H as <- <-.
    apply rv_rest in E1. lia. }
  destruct (t mod 8 =? 1).
  { destruct (take 8 bs) as [[u r1]|] eqn:E1; [|easy]. intros H. injection H as <- <-.
    apply T in E1. lia. }
  destruct (t mod 8 =? 2).
  { destruct (read_varint rt bs) as [[u r1]|] eqn:E1; [|easy].
    destruct (take u r1) as [[b r2]|] eqn:E2; [|easy]. intros H. injection H as <- <-.
    apply rv_rest in E1. apply T in E2. lia. }
  destruct (t mod 8 =? 5); [|easy].
  destruct (take 4 bs) as [[u r1]|] eqn:E1; [|easy]. intros H. injection H as <- <-.
  apply T in E1. lia.
Qed.

Lemma skip_group_rest rt : forall fuel bs r, skip_group rt fuel bs = Some r -> (length r < length bs)%nat.
Proof.
  induction fuel as [|fuel IH]; intros bs r H; [easy|]. cbn [skip_group] in H.
  destruct (read_tag rt bs) as [[t r0]|] eqn:E; [|easy]. apply read_tag_rest in E.
  destruct (t mod 8 =? 4); [now injection H as <-|].
  destruct (t mod 8 =? 3).
  - destruct (skip_group rt fuel r0) as [r1|] eqn:E1; [|easy]. apply IH in E1, H. lia.
  - destruct (read_value rt t r0) as [[v r1]|] eqn:E1; [|easy]. cbn in H. apply read_value_rest in E1. apply IH in H. lia.
Qed.

Lemma read_field_rest rt bs f r : read_field rt bs = Some (f, r) -> (length r < length bs)%nat.
Proof.
  unfold read_field. destruct (read_tag rt bs) as [[t r0]|] eqn:E; [|easy]. apply read_tag_rest in E.
  destruct (t mod 8 =? 3).
  - destruct (skip_group rt (length r0) r0) as [r1|] eqn:E1; [|easy]. cbn. intros H. injection H as <- <-.
    apply skip_group_rest in E1. lia.
  - destruct (read_value rt t r0) as [[v r1]|] eqn:E1; [|easy]. cbn. intros H. injection H as <- <-.
    apply read_value_rest in E1. lia.
Qed.

Lemma ser_field_nonempty f : ser_field f <> [].
Proof.
  unfold ser_field. intros H. apply app_eq_nil in H as [H _]. now apply varint_nonempty in H.
Qed.

Lemma fields_fuel_ok rt fs : Forall wf_field fs -> forall fuel, (length (ser fs) <= fuel)%nat ->
  fields_fuel rt fuel (ser fs) = Some fs.
Proof.
  induction 1 as [|f fs Hf _ IH]; intros fuel Hl; [now destruct fuel|].
  cbn [ser flat_map] in *. fold (ser fs) in *.
  pose proof (ser_field_nonempty f) as Hn.
  rewrite app_length in Hl.
  assert (length (ser_field f) <> 0)%nat by (destruct (ser_field f); cbn; easy).
  destruct fuel as [|fuel]; [lia|].
  pose proof (read_field_ok rt f (ser fs) Hf) as R.
  destruct (ser_field f ++ ser fs) as [|b bs] eqn:E.
  { apply app_eq_nil in E as [E _]. easy. }
  cbn [fields_fuel]. rewrite R, IH by lia. easy.
Qed.

Lemma fields_ser rt fs : Forall wf_field fs -> fields rt (ser fs) = Some fs.
Proof. intros H. unfold fields. now apply fields_fuel_ok. Qed.

Lemma ser_app a b : ser (a ++ b) = ser a ++ ser b.
Proof. apply flat_map_app. Qed.

Lemma payload_len t b fs : In (t, WLen b) fs -> (length b <= length (ser fs))%nat.
Proof.
  induction fs as [|f fs IH]; [easy|]. intros [->|H]; cbn [ser flat_map]; fold (ser fs);
    rewrite app_length.
  - unfold ser_field. cbn [fst snd]. rewrite !app_length. lia.
  - apply IH in H. lia.
Qed.

Lemma fold_opt_app {A B} (f : A -> B -> option A) l1 l2 a :
  fold_opt f a (l1 ++ l2) = opt_bind (fold_opt f a l1) (fun a' => fold_opt f a' l2).
Proof.
  revert a. induction l1 as [|b l1 IH]; intros a; cbn; [easy|].
  destruct (f a b); cbn; [apply IH|easy].
Qed.

Lemma merge_ser {M} rt (step : M -> field -> option M) init fs : Forall wf_field fs ->
  merge rt step init (ser fs) = fold_opt step init fs.
Proof. intros H. unfold merge. now rewrite fields_ser. Qed.

Lemma packed_fuel_ok {A} rt (dec : Z -> option A) (enc : A -> Z) l :
  Forall (fun v => in_u64 (enc v) /\ dec (enc v) = Some v) l -> forall fuel,
  (length (flat_map (fun v => varint (enc v)) l) <= fuel)%nat ->
  packed_fuel rt dec fuel (flat_map (fun v => varint (enc v)) l) = Some l.
Proof.
  induction 1 as [|v l [Hv Hd] _ IH]; intros fuel Hl; [now destruct fuel|].
  cbn [flat_map] in *. rewrite app_length in Hl.
  pose proof (varint_nonempty (enc v)) as Hn.
  assert (length (varint (enc v)) <> 0)%nat by (destruct (varint (enc v)); cbn; easy).
  destruct fuel as [|fuel]; [lia|].
  pose proof (read_varint_ok rt (enc v) (flat_map (fun v => varint (enc v)) l) Hv) as R.
  destruct (varint (enc v) ++ _) as [|b bs] eqn:E.
  { apply app_eq_nil in E as [E _]. easy. }
  cbn [packed_fuel]. rewrite R. cbn [opt_bind]. rewrite Hd. cbn [opt_bind].
  rewrite IH by lia. easy.
Qed.

Lemma packed_ok {A} rt (dec : pbrt -> Z -> option A) (enc : A -> Z) l :
  Forall (fun v => in_u64 (enc v) /\ dec rt (enc v) = Some v) l ->
  packed rt dec (flat_map (fun v => varint (enc v)) l) = Some l.
Proof. intros H. unfold packed. now apply packed_fuel_ok. Qed.
