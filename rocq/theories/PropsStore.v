(** C56: the node store as a map. *)
From Coq Require Import ZArith List Bool Lia.
From Coq Require Import ZifyBool ZifyNat.
From Verif Require Import Base NodeStore.
Import ListNotations.
Open Scope Z_scope.

(** ** Specification *)

(** The position last set for an id. *)
Definition last_set (ops : list (Z * (Z * Z))) (id : Z) : option (Z * Z) :=
  fold_left (fun cur '(i, p) => if Z.eq_dec i id then Some p else cur) ops None.
(** Calls as they can be made: ids are unsigned, positions are i32. *)
Definition good_set (op : Z * (Z * Z)) : Prop :=
  let '(id, (lat, lon)) := op in 0 <= id < 2^60 /\ in_i32 lat /\ in_i32 lon.
(** One coordinate is the one value the store keeps for itself. *)
Definition reserved (p : Z * Z) : Prop := fst p = 2^31 - 1 \/ snd p = 2^31 - 1.

(** ** Proof *)

Definition rec_sets (ops : list (Z * (Z * Z))) : list (Z * Z) :=
  fold_left (fun recs '(id, r) => rec_set recs id r) ops [].

Lemma nth_rec_set recs id r i : 0 <= id -> 
  nth_error (rec_set recs id r) i =
  if Nat.eq_dec i (Z.to_nat id) then Some r
  else if Nat.ltb i (length recs) then nth_error recs i
  else if Nat.ltb i (Z.to_nat id) then Some (sentinel, sentinel) else None.
Proof.
  intros H0. unfold rec_set. generalize (Z.to_nat id) as n. intros n.
  assert (Hl : length (firstn n (recs ++ repeat (sentinel, sentinel) (n - length recs))) = n).
  { rewrite firstn_length, app_length, repeat_length. lia. }
  destruct (Nat.eq_dec i n) as [->|Hn].
  - rewrite nth_error_app2 by lia. rewrite Hl, Nat.sub_diag. reflexivity.
  - destruct (Nat.ltb i n) eqn:E.
    + rewrite nth_error_app1 by lia.
      assert (Hi : (i < n)%nat) by lia.
      assert (F : forall {A} k (l : list A) j, (j < k)%nat -> nth_error (firstn k l) j = nth_error l j).
      { clear. intros A k. induction k as [|k IH]; intros l j Hj; [lia|].
        destruct l; [now destruct j|]. destruct j; [reflexivity|]. cbn. apply IH. lia. }
      rewrite F by assumption. destruct (Nat.ltb i (length recs)) eqn:E2.
      * rewrite nth_error_app1 by lia. reflexivity.
      * rewrite nth_error_app2 by lia. rewrite nth_error_repeat by lia. reflexivity.
    + assert (Hi : (n < i)%nat) by lia.
      rewrite nth_error_app2 by lia. rewrite Hl.
      destruct (i - n)%nat as [|k] eqn:Ek; [lia|]. cbn [nth_error].
      assert (F : forall {A} k (l : list A) j, nth_error (skipn k l) j = nth_error l (k + j)).
      { clear. intros A k. induction k as [|k IH]; intros l j; [reflexivity|].
        destruct l; [now destruct j|]. cbn. apply IH. }
      rewrite F. replace (S n + k)%nat with i by lia.
      destruct (Nat.ltb i (length recs)) eqn:E2; [reflexivity|]. apply nth_error_None. lia.
Qed.

Lemma rec_set_len recs id r : 0 <= id ->
  length (rec_set recs id r) = Nat.max (length recs) (S (Z.to_nat id)).
Proof.
  intros H. unfold rec_set. rewrite app_length, firstn_length, app_length, repeat_length. cbn [length].
  rewrite skipn_length. lia.
Qed.

Lemma last_set_snoc ops id i p :
  last_set (ops ++ [(i, p)]) id = if Z.eq_dec i id then Some p else last_set ops id.
Proof. unfold last_set. rewrite fold_left_app. reflexivity. Qed.

Lemma last_set_none ops id : (forall p, ~ In (id, p) ops) -> last_set ops id = None.
Proof.
  induction ops as [|[j q] ops IH] using rev_ind; intros H; [reflexivity|].
  rewrite last_set_snoc. destruct (Z.eq_dec j id) as [->|Hne].
  - exfalso. apply (H q). apply in_or_app. right. now left.
  - apply IH. intros p Hin. apply (H p). apply in_or_app. now left.
Qed.

Lemma store_records ops : Forall good_set ops ->
  st_inv (st_sets ops) (rec_sets ops)
  /\ Forall (fun r => in_i32 (fst r) /\ in_i32 (snd r)) (rec_sets ops)
  /\ (forall id, 0 <= id ->
       ((Z.to_nat id < length (rec_sets ops))%nat <-> exists i p, In (i, p) ops /\ id <= i)
       /\ ((Z.to_nat id < length (rec_sets ops))%nat ->
           nth_error (rec_sets ops) (Z.to_nat id) = Some (unwrap_or (last_set ops id) (sentinel, sentinel)))).
Proof.
  induction ops as [|[i [lat lon]] ops IH] using rev_ind; intros HF.
  - split; [split; [reflexivity|now left]|]. split; [constructor|]. intros id Hid. split.
    + split; [cbn; lia|]. intros (? & ? & [] & _).
    + cbn. lia.
  - apply Forall_app in HF as [HF H1]. inversion H1 as [|? ? Hg _]; subst. destruct Hg as (Hi & Hlat & Hlon).
    destruct (IH HF) as (A & B0 & C).
    assert (E1 : st_sets (ops ++ [(i, (lat, lon))]) = st_set (st_sets ops) i lat lon)
      by (unfold st_sets; now rewrite fold_left_app).
    assert (E2 : rec_sets (ops ++ [(i, (lat, lon))]) = rec_set (rec_sets ops) i (lat, lon))
      by (unfold rec_sets; now rewrite fold_left_app).
    rewrite E1, E2. split; [apply st_set_inv; [lia|exact A]|]. split.
    + unfold rec_set. apply Forall_app. split.
      * apply Forall_forall. intros r Hr.
        assert (Hin : In r (rec_sets ops ++ repeat (sentinel, sentinel) (Z.to_nat i - length (rec_sets ops)))).
        { rewrite <- (firstn_skipn (Z.to_nat i)). apply in_or_app. now left. }
        apply in_app_or in Hin as [Hin|Hin].
        -- rewrite Forall_forall in B0. now apply B0.
        -- apply repeat_spec in Hin. subst r. cbn [fst snd]. unfold in_i32, sentinel. lia.
      * constructor; [now split|]. apply Forall_forall. intros r Hr. rewrite Forall_forall in B0. apply B0.
        rewrite <- (firstn_skipn (S (Z.to_nat i))). apply in_or_app. now right.
    + intros id Hid. destruct (C id Hid) as [C1 C2]. rewrite rec_set_len by lia. split.
      * split.
        -- intros Hl. destruct (Nat.ltb (Z.to_nat id) (length (rec_sets ops))) eqn:E.
           ++ destruct C1 as [C1 _]. destruct C1 as (i' & p & Hin & Hle); [lia|].
              exists i', p. split; [apply in_or_app; now left|exact Hle].
           ++ exists i, (lat, lon). split; [apply in_or_app; right; now left|]. lia.
        -- intros (i' & p & Hin & Hle). apply in_app_or in Hin as [Hin|[Hin|[]]].
           ++ destruct C1 as [_ C1]. assert (Z.to_nat id < length (rec_sets ops))%nat by (apply C1; eauto). lia.
           ++ injection Hin as -> _. lia.
      * intros Hl. rewrite nth_rec_set by lia. rewrite last_set_snoc.
        destruct (Nat.eq_dec (Z.to_nat id) (Z.to_nat i)) as [E|E].
        -- destruct (Z.eq_dec i id); [reflexivity|lia].
        -- destruct (Z.eq_dec i id) as [->|Hne]; [lia|].
           destruct (Nat.ltb (Z.to_nat id) (length (rec_sets ops))) eqn:Ea; [apply C2; lia|].
           destruct (Nat.ltb (Z.to_nat id) (Z.to_nat i)) eqn:E3; [|lia].
           assert (Hnone : last_set ops id = None).
           { apply last_set_none. intros p Hin.
             assert (Z.to_nat id < length (rec_sets ops))%nat by (apply C1; exists id, p; split; [exact Hin|lia]). lia. }
           rewrite Hnone. reflexivity.
Qed.

Lemma store_exact ops id : Forall good_set ops -> 0 <= id ->
  ((exists i p, In (i, p) ops /\ id <= i) ->
   st_get (st_file (st_sets ops)) id
   = Ret (match last_set ops id with
          | Some (lat, lon) => if (lat =? sentinel) || (lon =? sentinel) then None else Some (lat, lon)
          | None => None
          end))
  /\ ((forall i p, In (i, p) ops -> i < id) -> st_get (st_file (st_sets ops)) id = Panic).
Proof.
  intros HF H0. destruct (store_records ops HF) as ([A _] & B0 & C). destruct (C id H0) as [C1 C2].
  rewrite A, st_get_recs by assumption. split.
  - intros Hex. apply C1 in Hex. rewrite (C2 Hex). destruct (last_set ops id) as [[lat lon]|]; reflexivity.
  - intros Hno. destruct (nth_error (rec_sets ops) (Z.to_nat id)) as [r|] eqn:E; [|reflexivity].
    assert (Hl : (Z.to_nat id < length (rec_sets ops))%nat) by (apply nth_error_Some; congruence).
    apply C1 in Hl as (i & p & Hin & Hle). specialize (Hno i p Hin). lia.
Qed.

(** ** C56 *)

(** Full statement: after any sequence of set calls, get(id) returns the position
    last set for id, and None if there is none.  It holds for ids up to the
    highest one set and positions other than the reserved one... *)
Theorem C56_map_partial : forall ops id, Forall good_set ops -> 0 <= id ->
  (exists i p, In (i, p) ops /\ id <= i) ->
  (forall p, last_set ops id = Some p -> ~ reserved p) ->
  st_get (st_file (st_sets ops)) id = Ret (last_set ops id).
Proof.
  intros ops id HF H0 Hex Hr. destruct (store_exact ops id HF H0) as [A _]. rewrite (A Hex).
  destruct (last_set ops id) as [[lat lon]|]; [|reflexivity].
  specialize (Hr _ eq_refl). unfold reserved, sentinel in *. cbn [fst snd] in Hr.
  destruct (lat =? 2^31 - 1) eqn:E1; [lia|]. destruct (lon =? 2^31 - 1) eqn:E2; [lia|]. reflexivity.
Qed.
Print Assumptions C56_map_partial.

(** ... beyond the highest id it panics instead of returning None ... *)
Theorem C56_beyond_refuted : forall ops id, Forall good_set ops -> 0 <= id ->
  (forall i p, In (i, p) ops -> i < id) -> st_get (st_file (st_sets ops)) id = Panic.
Proof. intros ops id HF H0. now destruct (store_exact ops id HF H0). Qed.
Print Assumptions C56_beyond_refuted.

(** ... and a position with a coordinate 214.7483647 is lost. *)
Theorem C56_reserved_refuted : forall ops id p, Forall good_set ops -> 0 <= id ->
  last_set ops id = Some p -> reserved p -> st_get (st_file (st_sets ops)) id = Ret None.
Proof.
  intros ops id [lat lon] HF H0 Hs Hr.
  assert (Hin : exists q, In (id, q) ops).
  { destruct (last_set ops id) eqn:E; [|discriminate].
    clear -E. induction ops as [|[j q] ops IH] using rev_ind; [discriminate|].
    rewrite last_set_snoc in E. destruct (Z.eq_dec j id) as [->|].
    - exists q. apply in_or_app. right. now left.
    - destruct (IH E) as [q' Hq]. exists q'. apply in_or_app. now left. }
  destruct Hin as [q Hin]. destruct (store_exact ops id HF H0) as [A _].
  rewrite A by (exists id, q; split; [exact Hin|lia]). rewrite Hs.
  unfold reserved, sentinel in *. cbn [fst snd] in Hr.
  destruct (lat =? 2^31 - 1) eqn:E1; [reflexivity|]. destruct (lon =? 2^31 - 1) eqn:E2; [reflexivity|]. lia.
Qed.
Print Assumptions C56_reserved_refuted.

Example C56_ex : let ops := [(5, (10, -20)); (2, (7, 8)); (9, (1, 1)); (2, (-7, 2^31 - 2)); (3, (2^31 - 1, 0))] in
  Forall good_set ops
  /\ last_set ops 2 = Some (-7, 2^31 - 2) /\ st_get (st_file (st_sets ops)) 2 = Ret (Some (-7, 2^31 - 2))
  /\ last_set ops 4 = None /\ st_get (st_file (st_sets ops)) 4 = Ret None
  /\ st_get (st_file (st_sets ops)) 10 = Panic
  /\ last_set ops 3 = Some (2^31 - 1, 0) /\ st_get (st_file (st_sets ops)) 3 = Ret None.
Proof.
  cbv zeta. split.
  - repeat constructor; cbn; try lia.
  - repeat split; vm_compute; reflexivity.
Qed.

(** ** Ids of any size *)

Lemma st_get_past f id : Z.of_nat (length f) <= id * 8 -> st_get f id = Panic.
Proof. intros H. unfold st_get. rewrite skipn_all2 by lia. reflexivity. Qed.

(** For every u64 id (the file is smaller than 2^63 bytes, as all files are): a build with
    overflow checks answers as above; one without looks up the id modulo 2^61. *)
Theorem C56_any_id : forall f id, Z.of_nat (length f) < 2^63 -> in_u64 id ->
  st_get_any true f id = st_get f id /\ st_get_any false f id = st_get f (id mod 2^61).
Proof.
  intros f id Hf Hi. unfold in_u64 in Hi. unfold st_get_any, in_u64b, as_u64.
  assert (P : forall i, 2^60 <= i -> st_get f i = Panic) by (intros i Hi'; apply st_get_past; lia).
  destruct ((0 <=? id * 8) && (id * 8 <? 2^64)) eqn:E.
  - assert (id < 2^61) by lia. rewrite Z.mod_small by lia. destruct (id * 8 <? 2^63) eqn:E'; [now split|].
    rewrite P by lia. now split.
  - assert (2^61 <= id) by lia. split; [symmetry; apply P; lia|].
    assert (M : (id * 8) mod 2^64 = (id mod 2^61) * 8) by (change (2^64) with (2^61 * 8); rewrite Z.mul_mod_distr_r; lia).
    rewrite M, Z.div_mul by lia. destruct (id mod 2^61 * 8 <? 2^63) eqn:E'; [reflexivity|]. symmetry. apply P. lia.
Qed.
Print Assumptions C56_any_id.

(** Without overflow checks an id that was never set is answered with the position of
    another one. *)
Theorem C56_alias_refuted : forall ops id p k, Forall good_set ops -> Z.of_nat (length (st_file (st_sets ops))) < 2^63 ->
  0 <= id < 2^61 -> last_set ops id = Some p -> ~ reserved p -> 1 <= k < 8 ->
  last_set ops (id + k * 2^61) = None /\ st_get_any false (st_file (st_sets ops)) (id + k * 2^61) = Ret (Some p).
Proof.
  intros ops id p k HF Hl Hi Hs Hr Hk.
  assert (B : forall i q, In (i, q) ops -> i * 8 < 2^63).
  { intros i q Hin. destruct (Z_lt_le_dec (i * 8) (2^63)) as [L|L]; [exact L|exfalso].
    assert (H0 : 0 <= i) by (rewrite Forall_forall in HF; apply HF in Hin; unfold good_set in Hin; cbn in Hin; lia).
    destruct (store_exact ops i HF H0) as [A _]. rewrite st_get_past in A by lia. discriminate A. exists i, q. split; [exact Hin|lia]. }
  split.
  - apply last_set_none. intros q Hin. apply B in Hin. lia.
  - destruct (C56_any_id (st_file (st_sets ops)) (id + k * 2^61) Hl) as (_ & ->); [unfold in_u64; lia|].
    rewrite Z_mod_plus_full, Z.mod_small by lia. rewrite <- Hs. apply C56_map_partial; [exact HF|lia| |].
    + assert (Hin : exists q, In (id, q) ops).
      { clear -Hs. induction ops as [|[j q] ops IH] using rev_ind; [discriminate|].
        rewrite last_set_snoc in Hs. destruct (Z.eq_dec j id) as [->|].
        - exists q. apply in_or_app. right. now left.
        - destruct (IH Hs) as [q' Hq]. exists q'. apply in_or_app. now left. }
      destruct Hin as [q Hin]. exists id, q. split; [exact Hin|lia].
    + intros q Hq. congruence.
Qed.
Print Assumptions C56_alias_refuted.
Example C56_alias_ex : st_get_any false (st_file (st_sets [(5, (10, -20))])) (5 + 2^61) = Ret (Some (10, -20)) /\
  st_get_any true (st_file (st_sets [(5, (10, -20))])) (5 + 2^61) = Panic.
Proof. split; vm_compute; reflexivity. Qed.
