(** The node store: src/nodestore.rs.  The module is in the source tree but not
    part of the crate (src/lib.rs has no "mod nodestore").

    The file is the list of its bytes.  Simplified: the buffers of BufWriter and
    BufReader are left out (the store is read after the writer is dropped; NodeStoreBuf.v has
    the buffer of the writer), I/O does not fail, and in [set] [node_id * 8] does not overflow (ids below 2^60; larger ones
    would need files larger than any file system has). *)
From Coq Require Import ZArith List Bool Lia.
From Coq Require Import ZifyBool ZifyNat.
From Verif Require Import Base.
Import ListNotations.
Open Scope Z_scope.

(** [write_i32::<BigEndian>]. *)
Definition be32 (v : Z) : bytes :=
  let u := as_u32 v in [u / 2^24; u / 2^16 mod 256; u / 2^8 mod 256; u mod 256].
(** [read_i32::<BigEndian>]: the value and the rest; None at the end of the file. *)
Definition rd32 (b : bytes) : option (Z * bytes) :=
  match b with
  | x :: y :: z :: w :: r => Some (as_i32 (((x * 256 + y) * 256 + z) * 256 + w), r)
  | _ => None
  end.

(** Seek to a position and write there; a gap is filled with zeros. *)
Definition write_at (p : nat) (d f : bytes) : bytes :=
  firstn p (f ++ repeat 0 (p - length f)) ++ d ++ skipn (p + length d) f.

(** SENTINAL_VALUE_FOR_EMPTY, src/nodestore.rs:47 *)
Definition sentinel : Z := 2^31 - 1.

(** NodeStoreWriter, src/nodestore.rs:9-12 *)
Record store := Store { max_node_id : Z; st_file : bytes }.
(** create, src/nodestore.rs:19-25 *)
Definition st_create : store := Store 0 [].

(** set, src/nodestore.rs:27-44 *)
Definition st_set (w : store) (id lat lon : Z) : store :=
  let w1 :=
    if max_node_id w <? id then
      Store id (st_file w ++ concat (repeat (be32 sentinel ++ be32 sentinel) (Z.to_nat (id - max_node_id w))))
    else w in
  Store (max_node_id w1) (write_at (Z.to_nat (id * 8)) (be32 lat ++ be32 lon) (st_file w1)).

(** NodeStoreReader::get, src/nodestore.rs:55-64 *)
Definition st_get (f : bytes) (id : Z) : outcome (option (Z * Z)) :=
  do (lat, r) <- unwrap (rd32 (skipn (Z.to_nat (id * 8)) f));
  do (lon, _) <- unwrap (rd32 r);
  Ret (if (lat =? sentinel) || (lon =? sentinel) then None else Some (lat, lon)).

(** The same for every u64: [node_id * 8] overflows from 2^61 on (a panic, or the product
    modulo 2^64, by build profile), and a seek beyond 2^63 - 1 fails (the offset is passed
    to the system as a signed number), which panics. *)
Definition st_get_any (chk : profile) (f : bytes) (id : Z) : outcome (option (Z * Z)) :=
  let p := id * 8 in
  if in_u64b p then (if p <? 2^63 then st_get f id else Panic)
  else if chk then Panic
  else if as_u64 p <? 2^63 then st_get f (as_u64 p / 8) else Panic.

(** A history of set calls. *)
Definition st_sets (ops : list (Z * (Z * Z))) : store :=
  fold_left (fun w '(id, (lat, lon)) => st_set w id lat lon) ops st_create.

(** ** Facts: the file is a list of records *)

Definition enc_rec (r : Z * Z) : bytes := be32 (fst r) ++ be32 (snd r).
Definition enc_recs (l : list (Z * Z)) : bytes := flat_map enc_rec l.

Lemma be32_len v : length (be32 v) = 4%nat.
Proof. reflexivity. Qed.
Lemma enc_rec_len r : length (enc_rec r) = 8%nat.
Proof. reflexivity. Qed.
Lemma enc_recs_len l : length (enc_recs l) = (8 * length l)%nat.
Proof.
  unfold enc_recs. induction l as [|r l IH]; [reflexivity|].
  cbn [flat_map]. rewrite app_length, IH, enc_rec_len. cbn [length]. lia.
Qed.

Lemma rd32_be32 v r : in_i32 v -> rd32 (be32 v ++ r) = Some (v, r).
Proof.
  intros H. unfold be32. cbn [app rd32]. f_equal. f_equal.
  pose proof (as_u32_range v) as Hu. set (u := as_u32 v) in *.
  assert (E : ((u / 2^24 * 256 + u / 2^16 mod 256) * 256 + u / 2^8 mod 256) * 256 + u mod 256 = u).
  { change (2^24) with 16777216. change (2^16) with 65536. change (2^8) with 256.
    Z.div_mod_to_equations. lia. }
  rewrite E. subst u. unfold as_i32, as_u32, in_i32 in *.
  rewrite Zplus_mod_idemp_l. rewrite Z.mod_small; lia.
Qed.

Lemma skipn_recs n l : skipn (8 * n) (enc_recs l) = enc_recs (skipn n l).
Proof.
  revert l. induction n as [|n IH]; intros l; [reflexivity|].
  replace (8 * S n)%nat with (8 + 8 * n)%nat by lia.
  destruct l as [|r l]; [cbn [enc_recs flat_map skipn]; apply skipn_nil|].
  cbn [skipn]. rewrite <- IH. reflexivity.
Qed.
Lemma firstn_recs n l : firstn (8 * n) (enc_recs l) = enc_recs (firstn n l).
Proof.
  revert l. induction n as [|n IH]; intros l; [reflexivity|].
  replace (8 * S n)%nat with (8 + 8 * n)%nat by lia.
  destruct l as [|r l]; [cbn [enc_recs flat_map firstn]; apply firstn_nil|].
  cbn [firstn]. unfold enc_recs in *. cbn [flat_map]. rewrite <- IH. reflexivity.
Qed.

Lemma write_at_recs n r l : (n <= length l)%nat ->
  write_at (8 * n) (enc_rec r) (enc_recs l) = enc_recs (firstn n l ++ r :: skipn (S n) l).
Proof.
  intros H. unfold write_at. rewrite enc_recs_len, enc_rec_len.
  replace (8 * n - 8 * length l)%nat with O by lia. cbn [repeat]. rewrite app_nil_r.
  rewrite firstn_recs. replace (8 * n + 8)%nat with (8 * S n)%nat by lia. rewrite skipn_recs.
  unfold enc_recs. rewrite flat_map_app. reflexivity.
Qed.

Lemma concat_repeat_recs n : concat (repeat (be32 sentinel ++ be32 sentinel) n)
  = enc_recs (repeat (sentinel, sentinel) n).
Proof. unfold enc_recs. induction n as [|n IH]; [reflexivity|]. cbn [repeat concat flat_map]. now rewrite IH. Qed.

Lemma st_get_recs l id : 0 <= id -> Forall (fun r => in_i32 (fst r) /\ in_i32 (snd r)) l ->
  st_get (enc_recs l) id =
  match nth_error l (Z.to_nat id) with
  | Some (lat, lon) => Ret (if (lat =? sentinel) || (lon =? sentinel) then None else Some (lat, lon))
  | None => Panic
  end.
Proof.
  intros H0 HF. unfold st_get. replace (Z.to_nat (id * 8)) with (8 * Z.to_nat id)%nat by lia.
  rewrite skipn_recs. generalize (Z.to_nat id) as n. intros n. revert l HF.
  induction n as [|n IH]; intros l HF.
  - destruct l as [|[a b] l]; [reflexivity|]. inversion HF as [|? ? [Ha Hb] _]; subst. cbn [fst snd] in *.
    cbn [skipn nth_error]. unfold enc_recs. cbn [flat_map]. unfold enc_rec. cbn [fst snd].
    rewrite <- !app_assoc. rewrite rd32_be32 by assumption. cbn [unwrap obind].
    rewrite rd32_be32 by assumption. reflexivity.
  - destruct l as [|r l]; [reflexivity|]. inversion HF; subst. cbn [skipn nth_error]. now apply IH.
Qed.

(** The records of a history. *)
Definition rec_set (recs : list (Z * Z)) (id : Z) (r : Z * Z) : list (Z * Z) :=
  let n := Z.to_nat id in
  firstn n (recs ++ repeat (sentinel, sentinel) (n - length recs)) ++ r :: skipn (S n) recs.

Definition st_inv (w : store) (recs : list (Z * Z)) : Prop :=
  st_file w = enc_recs recs /\
  ((recs = [] /\ max_node_id w = 0) \/ Z.of_nat (length recs) = max_node_id w + 1).

Lemma st_set_inv w recs id lat lon : 0 <= id -> st_inv w recs ->
  st_inv (st_set w id lat lon) (rec_set recs id (lat, lon)).
Proof.
  intros H0 [Hf Hm]. unfold st_set, rec_set.
  replace (Z.to_nat (id * 8)) with (8 * Z.to_nat id)%nat by lia.
  change (be32 lat ++ be32 lon) with (enc_rec (lat, lon)).
  destruct (max_node_id w <? id) eqn:E.
  - cbn [max_node_id st_file]. rewrite Hf, concat_repeat_recs.
    assert (Ha : enc_recs recs ++ enc_recs (repeat (sentinel, sentinel) (Z.to_nat (id - max_node_id w)))
                 = enc_recs (recs ++ repeat (sentinel, sentinel) (Z.to_nat (id - max_node_id w)))).
    { unfold enc_recs. now rewrite flat_map_app. }
    rewrite Ha. destruct Hm as [[-> Hm0]|Hm].
    + rewrite write_at_recs by (rewrite app_length, repeat_length; cbn; lia).
      unfold st_inv. cbn [st_file max_node_id length app].
      replace (Z.to_nat (id - max_node_id w)) with (Z.to_nat id - 0)%nat by lia. split.
      * f_equal. f_equal. f_equal. rewrite !skipn_nil. apply skipn_all2. rewrite repeat_length. lia.
      * right. rewrite app_length. cbn [length]. rewrite firstn_length, repeat_length, skipn_nil. cbn [length]. lia.
    + rewrite write_at_recs by (rewrite app_length, repeat_length; lia).
      unfold st_inv. cbn [st_file max_node_id]. split.
      * f_equal. f_equal.
        -- replace (Z.to_nat (id - max_node_id w)) with (S (Z.to_nat id - length recs)) by lia.
           cbn [repeat]. rewrite !firstn_app. f_equal.
           replace ((sentinel, sentinel) :: repeat (sentinel, sentinel) (Z.to_nat id - length recs))
             with (repeat (sentinel, sentinel) (Z.to_nat id - length recs) ++ [(sentinel, sentinel)])
             by (rewrite <- repeat_cons; reflexivity).
           rewrite firstn_app, repeat_length, Nat.sub_diag. cbn [firstn]. now rewrite app_nil_r.
        -- f_equal. rewrite (skipn_all2 recs) by lia. apply skipn_all2. rewrite app_length, repeat_length. lia.
      * right. rewrite app_length. cbn [length].
        rewrite firstn_length, app_length, repeat_length, skipn_length. lia.
  - rewrite Hf. destruct Hm as [[-> Hm0]|Hm].
    + assert (id = 0) by lia. subst id. unfold st_inv. cbn. split; [reflexivity|]. right. lia.
    + rewrite write_at_recs by lia. unfold st_inv. cbn [st_file max_node_id].
      replace (Z.to_nat id - length recs)%nat with O by lia. cbn [repeat]. rewrite app_nil_r.
      split; [reflexivity|]. right. rewrite app_length. cbn [length].
      rewrite firstn_length, skipn_length. lia.
Qed.
