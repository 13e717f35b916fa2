(** C130: reading a node store while it is being written. *)
From Coq Require Import ZArith List Bool Lia.
From Coq Require Import ZifyBool ZifyNat.
From Verif Require Import Base NodeStore NodeStoreBuf PropsStore PropsStoreCrash.
Import ListNotations.
Open Scope Z_scope.

(** ** Specification *)

(** The states in which the writer can be from [s] on. *)
Inductive from (s : wst) : wst -> Prop :=
| f_here : from s s
| f_step s1 s2 : from s s1 -> wstep s1 s2 -> from s s2.
(** What a reader that calls get between [s] and the end can read: get, src/nodestore.rs:55-57,
    seeks, which makes the BufReader forget what it has read before, and then needs eight bytes.
    The reader may get them in one piece or in several, between which the writer goes on: each
    byte is the one that is in the file at some moment.  There are fewer than eight if the end
    of the file is met. *)
Definition read_during (s : wst) (id : Z) (seen : bytes) : Prop :=
  (length seen <= 8)%nat
  /\ (forall k x, nth_error seen k = Some x -> exists s', from s s' /\ nth_error (bytes_of (w_disk s') id) k = Some x)
  /\ ((length seen < 8)%nat -> exists s', from s s' /\ (length (bytes_of (w_disk s') id) <= length seen)%nat).
(** get makes of these bytes what it makes of a file that begins with them at id 0. *)
Definition get_seen (seen : bytes) : outcome (option (Z * Z)) := st_get seen 0.

(** ** Proof *)

Lemma bytes_recs l i : 0 <= i -> bytes_of (enc_recs l) i = match nth_error l (Z.to_nat i) with Some r => position r | None => [] end.
Proof.
  intros Hi. unfold bytes_of. replace (Z.to_nat (i * 8)) with (8 * Z.to_nat i)%nat by lia. rewrite skipn_recs. generalize (Z.to_nat i) as n. intros n.
  revert l. induction n as [|n IH]; intros l; destruct l as [|r l]; try reflexivity. cbn [skipn nth_error]. apply IH.
Qed.
Lemma last_in h i p : last_set h i = Some p -> In (i, p) h.
Proof.
  induction h as [|[j q] h IH] using rev_ind; [discriminate|]. unfold last_set. rewrite fold_left_app. cbn [fold_left].
  destruct (Z.eq_dec j i) as [->|N]; intros E; apply in_or_app; [injection E as <-; right; now left|left; now apply IH].
Qed.
Lemma base_bytes h id0 i : Forall good_set h -> 0 <= i ->
  (forall p, last_set h i = Some p -> bytes_of (file h ++ gap h id0) i = position p /\ (Z.to_nat (i * 8) + 8 <= length (file h))%nat)
  /\ (last_set h i = None -> exists j, bytes_of (file h ++ gap h id0) i = firstn j nowhere).
Proof.
  intros HF Hi. rewrite base_recs, bytes_recs by assumption. destruct (store_records h HF) as ((A & _) & B & D). destruct (D i Hi) as [D1 D2]. split.
  - intros p Hp. assert (L : (Z.to_nat i < length (rec_sets h))%nat) by (apply D1; exists i, p; split; [now apply last_in|lia]).
    rewrite nth_error_app1, (D2 L), Hp by exact L. split; [reflexivity|]. unfold file. rewrite A, enc_recs_len. lia.
  - intros Hn. destruct (le_lt_dec (length (rec_sets h)) (Z.to_nat i)) as [L|L].
    + rewrite nth_error_app2 by exact L. destruct (nth_error (repeat _ _) _) as [r|] eqn:E; [|now exists O]. apply nth_error_In, repeat_spec in E. subst r. now exists 8%nat.
    + rewrite nth_error_app1, (D2 L), Hn by exact L. now exists 8%nat.
Qed.

(** What can be in the eight bytes of an id after the calls [h1], while the first of [h2] is made. *)
Definition before (h1 : list (Z * (Z * Z))) (id : Z) (x : bytes) : Prop :=
  match last_set h1 id with Some p => x = position p | None => exists j, x = firstn j nowhere end.
Definition now_there (h1 h2 : list (Z * (Z * Z))) (id : Z) (x : bytes) : Prop :=
  before h1 id x \/ exists p k old, hd_error h2 = Some (id, p) /\ before h1 id old /\ x = firstn k (position p) ++ skipn k old.

Lemma base_before h id0 i : Forall good_set h -> 0 <= i -> before h i (bytes_of (file h ++ gap h id0) i).
Proof. intros HF Hi. destruct (base_bytes h id0 i HF Hi) as [A B]. unfold before. destruct (last_set h i) as [p|]; [now apply A|now apply B]. Qed.

Lemma at_any_time hist s : Forall good_set hist -> wreach hist s ->
  exists h1 h2, hist = h1 ++ h2 /\ (length h1 <= returned hist s <= S (length h1))%nat
  /\ forall id, 0 <= id -> now_there h1 h2 id (bytes_of (w_disk s) id).
Proof.
  intros HF R. apply inv_reach in R; [|exact HF].
  assert (REC : forall h id p0 cs x rest k d p b, hist = h ++ (id, p0) :: cs -> x ++ concat rest = position p0 -> seg (file h ++ gap h id) (here id) x k d p b ->
    forall i, 0 <= i -> now_there h ((id, p0) :: cs) i (bytes_of d i)).
  { intros h id p0 cs x rest k d p b E Ex (HP & Hk & Hd & _ & _) i Hi. subst hist d. apply Forall_app in HF as [Hh HF]. inversion HF as [|? ? Hg _]; subst.
    assert (H0 : 0 <= id) by (destruct p0; cbn in Hg; lia).
    assert (L8 : (length (firstn k x) <= 8)%nat) by (assert (length (position p0) = 8%nat) as L by reflexivity; rewrite <- Ex, app_length in L; rewrite firstn_length; lia).
    destruct (Z.eq_dec i id) as [->|N].
    - right. exists p0, (length (firstn k x)), (bytes_of (file h ++ gap h id) id). split; [reflexivity|]. split; [now apply base_before|].
      rewrite bytes_there by assumption. f_equal. rewrite <- Ex, firstn_app. rewrite firstn_length, Nat.min_l by exact Hk. replace (k - length x)%nat with O by lia. cbn [firstn]. now rewrite app_nil_r.
    - left. rewrite bytes_other by assumption. now apply base_before. }
  destruct R as [todo ops cs m H E|h id p0 todo k ops cs m d p b E H G|h id p0 cs x rest k m d p b E Ex Em G|h id p0 cs x rest k m d p b E Ex Er Em G]; cbn [w_disk].
  - exists [], hist. split; [reflexivity|]. split.
    { unfold returned. cbn [w_calls w_ops length]. destruct H as [(-> & -> & ->)|([id p] & -> & -> & ->)]; subst hist; [lia|]. cbn [length]. rewrite set_ops_cases. destruct (0 <? id); cbn [app]; lia. }
    intros id Hid. left. rewrite bytes_past by (cbn; lia). now exists O.
  - exists h, ((id, p0) :: todo). split; [exact E|]. split.
    { unfold returned. cbn [w_calls w_ops]. rewrite E, app_length. cbn [length]. destruct H as [(-> & -> & ->)|([id' p'] & -> & -> & ->)]; [lia|]. cbn [length]. rewrite set_ops_cases. destruct (_ <? id'); cbn [app]; lia. }
    apply (REC h id p0 todo (position p0) [] k d p b E); [apply app_nil_r|exact G].
  - exists h, ((id, p0) :: cs). split; [exact E|]. split.
    { unfold returned. cbn [w_calls w_ops]. rewrite E, app_length. cbn [length]. destruct (map Put rest); cbn [app]; lia. }
    destruct G as (_ & Hk & Hd & _ & _). rewrite write_at_in, firstn_all, (skipn_all2 (file h)), app_nil_r in Hd by lia.
    assert (Hd' : d = firstn (length (file h) + k) (file h ++ gap h id)).
    { rewrite firstn_app_2, <- Ex, firstn_app. replace (k - length x)%nat with O by lia. cbn [firstn]. now rewrite app_nil_r. }
    clear Hd. subst d hist. apply Forall_app in HF as [Hh _]. intros i Hi. left. destruct (base_bytes h id i Hh Hi) as [B1 B2].
    assert (P : bytes_of (firstn (length (file h) + k) (file h ++ gap h id)) i = firstn (length (file h) + k - Z.to_nat (i * 8)) (bytes_of (file h ++ gap h id) i)).
    { unfold bytes_of. rewrite skipn_firstn_comm, !firstn_firstn. f_equal. lia. }
    rewrite P. unfold before. destruct (last_set h i) as [q|].
    + destruct (B1 q eq_refl) as [-> L]. apply firstn_all2. change (length (position q)) with 8%nat. lia.
    + destruct (B2 eq_refl) as (j & ->). rewrite firstn_firstn. eauto.
  - exists h, ((id, p0) :: cs). split; [exact E|]. split.
    { unfold returned. cbn [w_calls w_ops]. rewrite E, app_length. cbn [length]. destruct rest; [congruence|]. cbn [map]. lia. }
    exact (REC h id p0 cs x rest k d p b E Ex G).
Qed.

Lemma reach_from hist s s' : wreach hist s -> from s s' -> wreach hist s'.
Proof. intros R F. induction F as [|s1 s2 _ IH S]; [exact R|]. now apply (wr_step _ s1). Qed.
Lemma step_returned hist s s' : wstep s s' -> (length (w_calls s) <= length hist)%nat -> (returned hist s <= returned hist s')%nat /\ (length (w_calls s') <= length hist)%nat.
Proof.
  intros S H. unfold returned. inversion S as [c ? ? ? ? ?|x ? r ? ? ? ?|? r ? ? ?|q ? r ? ? ?|n ? r ? ? ? ? Hn]; subst; cbn [w_calls w_ops length] in *.
  - destruct (set_ops m c); lia.
  - destruct r; lia.
  - destruct r; lia.
  - destruct r; lia.
  - lia.
Qed.
Lemma calls_len hist s : wreach hist s -> (length (w_calls s) <= length hist)%nat.
Proof. intros R. induction R as [|s s' _ IH S]; [apply le_n|]. now apply (step_returned hist s). Qed.
Lemma from_returned hist s s' : wreach hist s -> from s s' -> (returned hist s <= returned hist s')%nat.
Proof.
  intros R F. induction F as [|s1 s2 F IH S]; [apply le_n|]. etransitivity; [exact IH|]. apply step_returned; [exact S|]. apply calls_len. now apply (reach_from _ s).
Qed.

Lemma last_app_none h t i : ~ In i (map fst t) -> last_set (h ++ t) i = last_set h i.
Proof.
  intros N. induction t as [|[j q] t IH] using rev_ind; [now rewrite app_nil_r|]. rewrite map_app, in_app_iff in N. cbn in N.
  rewrite app_assoc. unfold last_set at 1. rewrite fold_left_app. cbn [fold_left]. fold (last_set (h ++ t) i). destruct (Z.eq_dec j i); [tauto|]. apply IH. tauto.
Qed.
Lemma split_le {A} (a b c d : list A) : a ++ b = c ++ d -> (length a <= length c)%nat -> exists t, c = a ++ t /\ b = t ++ d.
Proof.
  revert c. induction a as [|x a IH]; intros c E L; [now exists c|]. destruct c as [|y c]; [cbn in L; lia|]. injection E as -> E. cbn in L.
  destruct (IH c E ltac:(lia)) as (t & -> & ->). now exists t.
Qed.

(** The bytes of an id whose last call, and the one after it, have returned. *)
Lemma settled hist a b s s' id : Forall good_set hist -> wreach hist s -> from s s' -> hist = a ++ b -> (length a < returned hist s)%nat ->
  ~ In id (map fst b) -> 0 <= id -> before a id (bytes_of (w_disk s') id).
Proof.
  intros HF R F E L N Hi. destruct (at_any_time hist s' HF (reach_from _ _ _ R F)) as (h1 & h2 & E' & [_ L'] & H).
  pose proof (from_returned _ _ _ R F) as M. rewrite E in E'. destruct (split_le a b h1 h2 E' ltac:(lia)) as (t & -> & Eb).
  rewrite Eb, map_app, in_app_iff in N. destruct (H id Hi) as [B|(p & k & old & Hd & _ & _)].
  - unfold before in *. rewrite last_app_none in B by tauto. exact B.
  - elim N. right. destruct h2 as [|[j q] h2]; [discriminate|]. injection Hd as -> _. now left.
Qed.

Lemma nth_same {A} : forall (l m : list A), (forall k x, nth_error l k = Some x -> nth_error m k = Some x) -> length l = length m -> l = m.
Proof.
  induction l as [|x l IH]; intros [|y m] H L; try discriminate; [reflexivity|]. f_equal; [specialize (H O x eq_refl); now injection H|].
  apply IH; [intros k z; apply (H (S k))|now injection L].
Qed.
Lemma get_own p : in_i32 (fst p) -> in_i32 (snd p) -> ~ reserved p -> get_seen (position p) = Ret (Some p).
Proof.
  intros H1 H2 N. unfold get_seen.
  replace (position p) with (enc_recs [p]) by (unfold enc_recs; cbn [flat_map]; apply app_nil_r).
  rewrite st_get_recs; [|lia|constructor; [split; assumption|constructor]]. cbn [Z.to_nat nth_error]. destruct p as [lat lon]. unfold reserved in N. cbn [fst snd] in N.
  unfold sentinel. destruct (lat =? 2^31 - 1) eqn:E1; [lia|]. destruct (lon =? 2^31 - 1) eqn:E2; [lia|]. reflexivity.
Qed.
Lemma get_short seen : (length seen < 8)%nat -> get_seen seen = Panic.
Proof.
  intros L. unfold get_seen. rewrite get_bytes. assert ((length (bytes_of seen 0) <? 8)%nat = true) as ->; [|reflexivity].
  unfold bytes_of. rewrite firstn_length, skipn_length. lia.
Qed.

(** ** C130 *)

(** The calls [a] and one more have returned and none of the others sets this id: however the
    reads and the writes interleave from now on, get returns the position set last. *)
Theorem C130_settled : forall hist a b s id p seen, Forall good_set hist -> wreach hist s -> hist = a ++ b -> (length a < returned hist s)%nat ->
  last_set a id = Some p -> ~ In id (map fst b) -> ~ reserved p -> read_during s id seen -> get_seen seen = Ret (Some p).
Proof.
  intros hist a b s id p seen HF R E L Hp N Hr (L8 & Hs & He). pose proof (last_in _ _ _ Hp) as Hin.
  assert (Hg : good_set (id, p)) by (rewrite Forall_forall in HF; apply HF; rewrite E; apply in_or_app; now left).
  destruct p as [lat lon] eqn:Ep. cbn in Hg. rewrite <- Ep in *.
  assert (B : forall s', from s s' -> bytes_of (w_disk s') id = position p).
  { intros s' F. pose proof (settled hist a b s s' id HF R F E L N ltac:(lia)) as B. unfold before in B. now rewrite Hp in B. }
  assert (seen = position p) as ->; [|apply get_own; subst p; cbn; tauto].
  apply nth_same.
  - intros k x Hk. destruct (Hs k x Hk) as (s' & F & Hx). now rewrite B in Hx.
  - change (length (position p)) with 8%nat. destruct (le_lt_dec 8 (length seen)) as [G|G]; [lia|]. destruct (He G) as (s' & F & Hx). rewrite (B s' F) in Hx. change (length (position p)) with 8%nat in Hx. lia.
Qed.

(** An id that no call sets is never found. *)
Theorem C130_never_set : forall hist s id seen, Forall good_set hist -> wreach hist s -> 0 <= id -> ~ In id (map fst hist) ->
  read_during s id seen -> get_seen seen = Ret None \/ get_seen seen = Panic.
Proof.
  intros hist s id seen HF R Hi N (L8 & Hs & He). destruct (le_lt_dec 8 (length seen)) as [G|G]; [left|right; now apply get_short].
  assert (seen = nowhere) as ->; [|reflexivity]. apply nth_same; [|change (length nowhere) with 8%nat; lia].
  intros k x Hk. destruct (Hs k x Hk) as (s' & F & Hx). destruct (at_any_time hist s' HF (reach_from _ _ _ R F)) as (h1 & h2 & E & _ & H).
  assert (N1 : last_set h1 id = None).
  { destruct (last_set h1 id) as [q|] eqn:Eq; [|reflexivity]. elim N. rewrite E, map_app. apply in_or_app. left. apply last_in in Eq. now apply (in_map fst) in Eq. }
  destruct (H id Hi) as [B|(p & k' & old & Hd & _ & _)].
  - unfold before in B. rewrite N1 in B. destruct B as (j & B). rewrite B in Hx.
    assert (Y : forall (l : bytes) j k x, nth_error (firstn j l) k = Some x -> nth_error l k = Some x); [|exact (Y _ _ _ _ Hx)].
    clear. induction l as [|y l IH]; intros j k x; [now rewrite firstn_nil|]. destruct j; [now destruct k|]. destruct k; [exact (fun e => e)|]. cbn. apply IH.
  - elim N. rewrite E, map_app. apply in_or_app. right. destruct h2 as [|[j q] h2]; [discriminate|]. injection Hd as -> _. now left.
Qed.

(** Whatever is read for an id, each byte is that of a position that some call sets for this id
    (or of the mark for no position): never that of another id. *)
Theorem C130_own_bytes : forall hist s id seen k x, Forall good_set hist -> wreach hist s -> 0 <= id -> read_during s id seen -> nth_error seen k = Some x ->
  nth_error nowhere k = Some x \/ exists p, In (id, p) hist /\ nth_error (position p) k = Some x.
Proof.
  intros hist s id seen k x HF R Hi (_ & Hs & _) Hk. destruct (Hs k x Hk) as (s' & F & Hx). destruct (at_any_time hist s' HF (reach_from _ _ _ R F)) as (h1 & h2 & E & _ & H).
  assert (Y : forall (l : bytes) j k x, nth_error (firstn j l) k = Some x -> nth_error l k = Some x).
  { clear. induction l as [|y l IH]; intros j k x; [now rewrite firstn_nil|]. destruct j; [now destruct k|]. destruct k; [exact (fun e => e)|]. cbn. apply IH. }
  assert (Bf : forall y, before h1 id y -> nth_error y k = Some x -> nth_error nowhere k = Some x \/ exists p, In (id, p) hist /\ nth_error (position p) k = Some x).
  { intros y B Hy. unfold before in B. destruct (last_set h1 id) as [q|] eqn:Eq.
    - subst y. right. exists q. split; [|exact Hy]. rewrite E. apply in_or_app. left. now apply last_in.
    - destruct B as (j & ->). left. exact (Y _ _ _ _ Hy). }
  destruct (H id Hi) as [B|(p & n & old & Hd & B & Eb)]; [exact (Bf _ B Hx)|]. rewrite Eb in Hx.
  destruct (le_lt_dec (length (firstn n (position p))) k) as [G|G].
  - apply (Bf old B). rewrite nth_error_app2 in Hx by exact G. rewrite firstn_length in *. change (length (position p)) with 8%nat in *.
    assert (Z8 : forall (l : bytes) n k, nth_error (skipn n l) k = nth_error l (n + k)) by (clear; induction l as [|y l IH]; intros n k; [rewrite skipn_nil; now destruct k, n|]; destruct n; [reflexivity|]; cbn; apply IH).
    rewrite Z8 in Hx. destruct (le_lt_dec n 8) as [G8|G8]; [now replace (n + (k - Nat.min n 8))%nat with k in Hx by lia|].
    exfalso. assert (Lo : (length old <= 8)%nat).
    { unfold before in B. destruct (last_set h1 id); [subst old; apply le_n|]. destruct B as (j & ->). rewrite firstn_length. change (length nowhere) with 8%nat. lia. }
    assert (nth_error old (n + (k - Nat.min n 8)) = None) by (apply nth_error_None; lia). congruence.
  - rewrite nth_error_app1 in Hx by exact G. right. exists p. split; [|exact (Y _ _ _ _ Hx)]. rewrite E. apply in_or_app. right. destruct h2 as [|c h2]; [discriminate|]. injection Hd as ->. now left.
Qed.

(** "A position that is found was set" is false even if the writer always passes on whole
    positions: the reader may get one half before and one half after. *)
Definition whole (s : wst) : Prop := exists l, w_disk s = enc_recs l.
Theorem C130_halves_refuted : ~ forall hist s s' id p, Forall good_set hist -> wreach hist s -> whole s -> from s s' -> whole s' ->
  get_seen (firstn 4 (bytes_of (w_disk s) id) ++ skipn 4 (bytes_of (w_disk s') id)) = Ret (Some p) -> In (id, p) hist.
Proof.
  intros H. pose proof ex_first as R. apply (run_flush _ 8) in R; [|cbn; lia]. eapply (H ex_hist _ _ 0 (1, 4)) in R.
  - destruct R as [R|[R|[]]]; discriminate R.
  - repeat constructor; cbn; lia.
  - exists [(1, 2)]. reflexivity.
  - eapply f_step; [eapply f_step; [eapply f_step; [eapply f_step; [eapply f_step; [constructor|]|]|]|]|];
    [apply ws_call|apply (ws_start 0%nat)|apply ws_put|apply ws_put|apply (ws_flush 8); cbn; lia].
  - exists [(3, 4)]. reflexivity.
  - reflexivity.
Qed.

(** The position of id 0 is settled; the call that sets id 1 has returned too, but so far only
    the mark for no position is in the file. *)
Definition ex2 : list (Z * (Z * Z)) := [(0, (1, 2)); (0, (3, 4)); (1, (5, 6))].
Lemma run_end hist cs r m d p : wreach hist (W cs (SeekEnd :: r) m d p []) -> wreach hist (W cs r m d (length d) []).
Proof. intros R. eapply wr_step; [exact R|constructor]. Qed.
Lemma ex2_reach : wreach ex2 (W [] [] 1 (position (3, 4) ++ nowhere) 8 (position (5, 6))).
Proof.
  pose proof (wr_create ex2) as R. apply run_call in R. change (set_ops 0 (0, (1, 2))) with [SeekStart 0; Put (be32 1); Put (be32 2)] in R.
  apply run_start in R. apply run_put, run_put in R. apply (run_flush _ 8) in R; [|cbn; lia]. apply run_call in R.
  match type of R with wreach _ (W _ ?o _ _ _ _) => change o with [SeekStart 0; Put (be32 3); Put (be32 4)] in R end. apply (run_start _ 0%nat) in R. apply run_put, run_put in R.
  apply (run_flush _ 8) in R; [|cbn; lia]. apply run_call in R.
  match type of R with wreach _ (W _ ?o _ _ _ _) => change o with [SeekEnd; Put (be32 sentinel); Put (be32 sentinel); SeekStart 8; Put (be32 5); Put (be32 6)] in R end.
  apply run_end in R. apply run_put, run_put in R. apply (run_flush _ 8) in R; [|cbn; lia]. apply (run_start _ 8%nat) in R. apply run_put, run_put in R. exact R.
Qed.
Example C130_ex : Forall good_set ex2 /\ exists s a b, wreach ex2 s /\ ex2 = a ++ b /\ (length a < returned ex2 s)%nat /\ last_set a 0 = Some (3, 4)
  /\ ~ In 0 (map fst b) /\ read_during s 0 (position (3, 4)) /\ st_get (w_disk s) 1 = Ret None.
Proof.
  split; [repeat constructor; cbn; lia|]. eexists _, [(0, (1, 2)); (0, (3, 4))], [(1, (5, 6))]. split; [exact ex2_reach|]. split; [reflexivity|]. split; [cbn; lia|].
  split; [reflexivity|]. split; [cbn; lia|]. split; [|reflexivity]. split; [cbn; lia|]. split; [|cbn; lia].
  intros k x Hk. eexists. split; [constructor|exact Hk].
Qed.
Print Assumptions C130_settled.
Print Assumptions C130_never_set.
Print Assumptions C130_own_bytes.
Print Assumptions C130_halves_refuted.
