(** C129: the node store when its writer stops. *)
From Coq Require Import ZArith List Bool Lia.
From Coq Require Import ZifyBool ZifyNat.
From Verif Require Import Base NodeStore NodeStoreBuf PropsStore.
Import ListNotations.
Open Scope Z_scope.

(** ** Specification *)

(** How many calls have returned. *)
Definition returned (hist : list (Z * (Z * Z))) (s : wst) : nat :=
  (length hist - length (w_calls s) - match w_ops s with [] => 0 | _ => 1 end)%nat.
(** The eight bytes of an id, or what there is of them. *)
Definition bytes_of (f : bytes) (id : Z) : bytes := firstn 8 (skipn (Z.to_nat (id * 8)) f).
Definition position (p : Z * Z) : bytes := be32 (fst p) ++ be32 (snd p).
Definition nowhere : bytes := position (2^31 - 1, 2^31 - 1).

(** ** Proof *)

Lemma skip_skip {A} m : forall n (l : list A), skipn n (skipn m l) = skipn (m + n) l.
Proof. induction m as [|m IH]; intros n l; [reflexivity|]. destruct l; [now rewrite !skipn_nil|]. cbn. apply IH. Qed.
Lemma write_at_in p x (g : bytes) : (p <= length g)%nat -> write_at p x g = firstn p g ++ x ++ skipn (p + length x) g.
Proof. intros H. unfold write_at. replace (p - length g)%nat with O by lia. cbn [repeat]. now rewrite app_nil_r. Qed.
Lemma write_at_nil p (g : bytes) : (p <= length g)%nat -> write_at p [] g = g.
Proof. intros H. rewrite write_at_in by exact H. cbn [app length]. rewrite Nat.add_0_r. apply firstn_skipn. Qed.
Lemma write_at_len p x (g : bytes) : (p <= length g)%nat -> length (write_at p x g) = Nat.max (length g) (p + length x).
Proof. intros H. rewrite write_at_in by exact H. rewrite !app_length, firstn_length, skipn_length. lia. Qed.
Lemma write_at_app p a c (g : bytes) : (p <= length g)%nat -> write_at (p + length a) c (write_at p a g) = write_at p (a ++ c) g.
Proof.
  intros H. rewrite (write_at_in (p + length a)) by (rewrite write_at_len by exact H; lia). rewrite !(write_at_in p) by exact H.
  assert (L : length (firstn p g ++ a) = (p + length a)%nat) by (rewrite app_length, firstn_length; lia).
  rewrite (app_assoc (firstn p g)). rewrite firstn_app, L, Nat.sub_diag. cbn [firstn]. rewrite app_nil_r, firstn_all2 by lia.
  rewrite (skipn_app _ (firstn p g ++ a)), L, (skipn_all2 (firstn p g ++ a)) by lia. cbn [app].
  replace (p + length a + length c - (p + length a))%nat with (length c) by lia. rewrite skip_skip, app_length, <- !app_assoc.
  now replace (p + (length a + length c))%nat with (p + length a + length c)%nat by lia.
Qed.

(** The file and the buffer when the bytes [x] have been put at [P] of the file [G], and [k]
    of them have been passed on. *)
Definition seg (G : bytes) (P : nat) (x : bytes) (k : nat) (d : bytes) (p : nat) (b : bytes) : Prop :=
  (P <= length G)%nat /\ (k <= length x)%nat /\ d = write_at P (firstn k x) G /\ p = (P + k)%nat /\ b = skipn k x.
Lemma seg_flush G P x k d p b n : seg G P x k d p b -> (n <= length b)%nat ->
  seg G P x (k + n) (write_at p (firstn n b) d) (p + n) (skipn n b).
Proof.
  intros (HP & Hk & -> & -> & ->) Hn. rewrite skipn_length in Hn. split; [exact HP|]. split; [lia|]. split; [|split; [lia|apply skip_skip]].
  replace (P + k)%nat with (P + length (firstn k x))%nat by (rewrite firstn_length; lia). rewrite write_at_app by exact HP. f_equal.
  clear -Hk. revert x Hk. induction k as [|k IH]; intros x Hk; [reflexivity|]. destruct x; [cbn in Hk; lia|]. cbn in *. f_equal. apply IH. lia.
Qed.
Lemma seg_put G P x k d p b y : seg G P x k d p b -> seg G P (x ++ y) k d p (b ++ y).
Proof.
  intros (HP & Hk & -> & -> & ->). split; [exact HP|]. split; [rewrite app_length; lia|].
  rewrite firstn_app, skipn_app. replace (k - length x)%nat with O by lia. cbn [firstn skipn]. now rewrite app_nil_r.
Qed.
Lemma seg_done G P x k d p : seg G P x k d p [] -> d = write_at P x G.
Proof.
  intros (_ & Hk & -> & _ & E). apply (f_equal (@length _)) in E. rewrite skipn_length in E. cbn in E. now rewrite firstn_all2 by lia.
Qed.
Lemma seg_seek G P : (P <= length G)%nat -> seg G P [] 0 G P [].
Proof. intros H. split; [exact H|]. split; [apply le_n|]. cbn [firstn skipn]. rewrite write_at_nil by exact H. split; [reflexivity|]. split; [lia|reflexivity]. Qed.

Definition file h := st_file (st_sets h).
Definition top h := max_node_id (st_sets h).
Definition gap (h : list (Z * (Z * Z))) (id : Z) : bytes := concat (repeat (be32 sentinel ++ be32 sentinel) (Z.to_nat (id - top h))).
Definition here (id : Z) : nat := Z.to_nat (id * 8).

Lemma sets_snoc h id p : st_sets (h ++ [(id, p)]) = st_set (st_sets h) id (fst p) (snd p).
Proof. unfold st_sets. rewrite fold_left_app. now destruct p. Qed.
Lemma file_snoc h id p : file (h ++ [(id, p)]) = write_at (here id) (position p) (file h ++ gap h id).
Proof.
  unfold file, gap, top. rewrite sets_snoc. unfold st_set. destruct (max_node_id (st_sets h) <? id) eqn:E; cbn [st_file]; [reflexivity|].
  replace (Z.to_nat (id - max_node_id (st_sets h))) with O by lia. cbn [repeat concat]. now rewrite app_nil_r.
Qed.
Lemma top_snoc h id p : top (h ++ [(id, p)]) = Z.max (top h) id.
Proof. unfold top. rewrite sets_snoc. unfold st_set. destruct (max_node_id (st_sets h) <? id) eqn:E; cbn [max_node_id]; lia. Qed.

Lemma gap_recs h id : gap h id = enc_recs (repeat (sentinel, sentinel) (Z.to_nat (id - top h))).
Proof. apply concat_repeat_recs. Qed.
Lemma base_recs h id : Forall good_set h -> file h ++ gap h id = enc_recs (rec_sets h ++ repeat (sentinel, sentinel) (Z.to_nat (id - top h))).
Proof.
  intros HF. destruct (store_records h HF) as ((A & _) & _). unfold file. rewrite A, gap_recs. unfold enc_recs. now rewrite flat_map_app.
Qed.
Lemma here_le h id : Forall good_set h -> 0 <= id -> (here id <= length (file h ++ gap h id))%nat.
Proof.
  intros HF H0. rewrite base_recs by exact HF. rewrite enc_recs_len, app_length, repeat_length. unfold here.
  destruct (store_records h HF) as ((_ & A) & _). fold (top h) in A. destruct A as [[A B]|A]; rewrite ?A; cbn [length]; lia.
Qed.

(** What has happened so far. *)
Inductive inv (hist : list (Z * (Z * Z))) : wst -> Prop :=
| inv_new todo ops cs m : (ops = [] /\ cs = todo /\ m = 0) \/ (exists c, todo = c :: cs /\ ops = set_ops 0 c /\ m = Z.max 0 (fst c)) ->
    hist = todo -> inv hist (W cs ops m [] 0 [])
| inv_idle h id p0 todo k ops cs m d p b : hist = h ++ (id, p0) :: todo ->
    (ops = [] /\ cs = todo /\ m = top (h ++ [(id, p0)])) \/
    (exists c, todo = c :: cs /\ ops = set_ops (top (h ++ [(id, p0)])) c /\ m = Z.max (top (h ++ [(id, p0)])) (fst c)) ->
    seg (file h ++ gap h id) (here id) (position p0) k d p b -> inv hist (W cs ops m d p b)
| inv_gap h id p0 cs x rest k m d p b : hist = h ++ (id, p0) :: cs -> x ++ concat rest = gap h id -> m = Z.max (top h) id ->
    seg (file h) (length (file h)) x k d p b ->
    inv hist (W cs (map Put rest ++ [SeekStart (here id); Put (be32 (fst p0)); Put (be32 (snd p0))]) m d p b)
| inv_rec h id p0 cs x rest k m d p b : hist = h ++ (id, p0) :: cs -> x ++ concat rest = position p0 -> rest <> [] -> m = Z.max (top h) id ->
    seg (file h ++ gap h id) (here id) x k d p b -> inv hist (W cs (map Put rest) m d p b).

Lemma set_ops_cases m id p : set_ops m (id, p) =
  (if m <? id then SeekEnd :: map Put (concat (repeat [be32 sentinel; be32 sentinel] (Z.to_nat (id - m)))) else [])
  ++ [SeekStart (here id); Put (be32 (fst p)); Put (be32 (snd p))].
Proof.
  destruct p as [lat lon]. unfold set_ops. destruct (m <? id); [|reflexivity]. f_equal. f_equal. generalize (Z.to_nat (id - m)). intros n.
  induction n as [|n IH]; [reflexivity|]. cbn [repeat concat app map]. now rewrite IH.
Qed.
Lemma gap_puts n : concat (concat (repeat [be32 sentinel; be32 sentinel] n)) = concat (repeat (be32 sentinel ++ be32 sentinel) n).
Proof. induction n as [|n IH]; [reflexivity|]. cbn [repeat concat app]. rewrite IH. now rewrite app_assoc. Qed.

(** The first step of a call on a file that is complete. *)
Lemma inv_begin hist h id p0 cs m op ops : Forall good_set hist -> hist = h ++ (id, p0) :: cs -> set_ops (top h) (id, p0) = op :: ops -> m = Z.max (top h) id ->
  (op = SeekEnd -> inv hist (W cs ops m (file h) (length (file h)) []))
  /\ (forall q, op = SeekStart q -> inv hist (W cs ops m (file h) q []))
  /\ (forall x, op <> Put x).
Proof.
  intros HF -> E Em. rewrite set_ops_cases in E. assert (Hh : Forall good_set h) by (apply Forall_app in HF; apply HF).
  assert (H0 : 0 <= id) by (apply Forall_app in HF as [_ HF]; inversion HF as [|? ? G _]; destruct p0; cbn in G; lia).
  destruct (top h <? id) eqn:T; injection E as <- <-.
  - split; [|split; discriminate]. intros _. apply (inv_gap _ h id p0 cs [] (concat (repeat [be32 sentinel; be32 sentinel] (Z.to_nat (id - top h)))) 0); [reflexivity| |exact Em|now apply seg_seek].
    cbn [app]. apply gap_puts.
  - split; [discriminate|]. split; [|discriminate]. intros q [= <-].
    assert (Eg : gap h id = []) by (unfold gap; now replace (Z.to_nat (id - top h)) with O by lia).
    apply (inv_rec _ h id p0 cs [] [be32 (fst p0); be32 (snd p0)] 0); [reflexivity|cbn [app concat]; now rewrite app_nil_r|discriminate|exact Em|].
    pose proof (here_le h id Hh H0) as L. rewrite Eg, app_nil_r in *. now apply seg_seek.
Qed.

Lemma inv_step hist s s' : Forall good_set hist -> inv hist s -> wstep s s' -> inv hist s'.
Proof.
  intros HF I S. destruct I as [todo ops cs m H E|h id p0 todo k ops cs m d p b E H G|h id p0 cs x rest k m d p b E Ex Em G|h id p0 cs x rest k m d p b E Ex Er Em G].
  - destruct H as [(-> & -> & ->)|(c & -> & -> & ->)].
    + inversion S as [c cs' m' d' p' b' E1| | | |n ? ? ? ? ? ? Hn]; subst; [|cbn in Hn; lia]. apply (inv_new _ (c :: cs')); [|reflexivity]. right. exists c. now repeat split.
    + destruct c as [id p0]. cbn [fst] in *. destruct (set_ops 0 (id, p0)) as [|op ops] eqn:Eo; [rewrite set_ops_cases in Eo; now destruct (0 <? id)|].
      inversion S as [|y ? r ? ? ? ?|? r ? ? ?|q ? r ? ? ?|n ? ? ? ? ? ? Hn]; subst; [| | |cbn in Hn; lia].
      * destruct (inv_begin _ [] id p0 _ _ _ _ HF eq_refl Eo eq_refl) as (_ & _ & N). now elim (N y).
      * exact (proj1 (inv_begin _ [] id p0 _ _ _ _ HF eq_refl Eo eq_refl) eq_refl).
      * exact (proj1 (proj2 (inv_begin _ [] id p0 _ _ _ _ HF eq_refl Eo eq_refl)) q eq_refl).
  - destruct H as [(-> & -> & ->)|([id' p'] & -> & -> & ->)].
    + inversion S as [c cs' m' d' p' b' E1| | | |n ? ? ? ? ? ? Hn]; subst.
      * eapply inv_idle; [reflexivity| |exact G]. right. exists c. now repeat split.
      * eapply inv_idle; [reflexivity| |apply (seg_flush _ _ _ _ _ _ _ n G); lia]. now left.
    + cbn [fst] in *. set (h1 := h ++ [(id, p0)]) in *. assert (E' : hist = h1 ++ (id', p') :: cs) by (unfold h1; rewrite <- app_assoc; exact E).
      assert (F1 : b = [] -> d = file h1) by (intros ->; unfold h1; rewrite file_snoc; exact (seg_done _ _ _ _ _ _ G)).
      clear E. destruct (set_ops (top h1) (id', p')) as [|op ops] eqn:Eo; [rewrite set_ops_cases in Eo; now destruct (top h1 <? id')|].
      inversion S as [|y ? r ? ? ? ?|? r ? ? ?|q ? r ? ? ?|n ? ? ? ? ? ? Hn]; subst.
      * destruct (inv_begin _ h1 id' p' _ _ _ _ HF eq_refl Eo eq_refl) as (_ & _ & N). now elim (N y).
      * rewrite (F1 eq_refl). exact (proj1 (inv_begin _ h1 id' p' _ _ _ _ HF eq_refl Eo eq_refl) eq_refl).
      * rewrite (F1 eq_refl). exact (proj1 (proj2 (inv_begin _ h1 id' p' _ _ _ _ HF eq_refl Eo eq_refl)) q eq_refl).
      * eapply (inv_idle _ h id p0); [unfold h1; rewrite <- app_assoc; reflexivity| |apply (seg_flush _ _ _ _ _ _ _ n G); lia]. right. exists (id', p'). fold h1. rewrite Eo. now repeat split.
  - destruct rest as [|y rest]; cbn [map app] in S.
    + inversion S as [| | |q ? r ? ? ?|n ? ? ? ? ? ? Hn]; subst.
      * cbn [concat] in Ex. rewrite app_nil_r in Ex. subst x. apply seg_done in G. rewrite write_at_in in G by apply le_n.
        rewrite firstn_all, skipn_all2, app_nil_r in G by lia. subst d.
        apply (inv_rec _ h id p0 cs [] [be32 (fst p0); be32 (snd p0)] 0); [reflexivity|cbn [app concat]; now rewrite app_nil_r|discriminate|reflexivity|].
        apply seg_seek. apply Forall_app in HF as [Hh HF]. inversion HF as [|? ? Hg _]. destruct p0; cbn in Hg. apply here_le; [exact Hh|lia].
      * apply (inv_gap _ h id p0 cs x [] (k + n)); [reflexivity|exact Ex|reflexivity|]. apply seg_flush; [exact G|lia].
    + inversion S as [|z ? r ? ? ? ?| | |n ? ? ? ? ? ? Hn]; subst.
      * apply (inv_gap _ h id p0 cs (x ++ y) rest k); [reflexivity|rewrite <- app_assoc; exact Ex|reflexivity|now apply seg_put].
      * apply (inv_gap _ h id p0 cs x (y :: rest) (k + n)); [reflexivity|exact Ex|reflexivity|]. apply seg_flush; [exact G|lia].
  - destruct rest as [|y rest]; [congruence|]. cbn [map] in S. inversion S as [|z ? r ? ? ? ?| | |n ? ? ? ? ? ? Hn]; subst.
    + destruct rest as [|y' rest].
      * cbn [concat] in Ex. rewrite app_nil_r in Ex. cbn [map]. eapply (inv_idle _ h id p0 cs); [reflexivity|left; split; [reflexivity|split; [reflexivity|now rewrite top_snoc]]|]. rewrite <- Ex. apply seg_put. exact G.
      * apply (inv_rec _ h id p0 cs (x ++ y) (y' :: rest) k); [reflexivity|rewrite <- app_assoc; exact Ex|discriminate|reflexivity|now apply seg_put].
    + apply (inv_rec _ h id p0 cs x (y :: rest) (k + n)); [reflexivity|exact Ex|exact Er|reflexivity|]. apply seg_flush; [exact G|lia].
Qed.
Lemma inv_reach hist s : Forall good_set hist -> wreach hist s -> inv hist s.
Proof.
  intros HF R. induction R as [|s s' _ IH S]; [|now apply (inv_step hist s)]. apply (inv_new _ hist); [|reflexivity]. now left.
Qed.

(** ** Reading the file *)

Lemma rd32_len b : (length b < 4)%nat -> rd32 b = None.
Proof. intros H. do 4 (destruct b as [|? b]; [reflexivity|]). cbn in H. lia. Qed.
Lemma rd32_app b c : (4 <= length b)%nat -> rd32 (b ++ c) = match rd32 b with Some (v, r) => Some (v, r ++ c) | None => None end.
Proof. intros H. do 4 (destruct b as [|? b]; [cbn in H; lia|]). reflexivity. Qed.
Lemma rd32_rest b v r : rd32 b = Some (v, r) -> length b = (4 + length r)%nat.
Proof. do 4 (destruct b as [|? b]; [discriminate|]). cbn [rd32]. intros [= _ <-]. reflexivity. Qed.
Lemma get_bytes f id : st_get f id =
  if (length (bytes_of f id) <? 8)%nat then Panic else
  match rd32 (bytes_of f id) with Some (lat, r) => match rd32 r with Some (lon, _) => Ret (if (lat =? sentinel) || (lon =? sentinel) then None else Some (lat, lon)) | None => Panic end | None => Panic end.
Proof.
  unfold st_get, bytes_of. set (g := skipn (Z.to_nat (id * 8)) f). destruct (length (firstn 8 g) <? 8)%nat eqn:E.
  - rewrite firstn_length in E. assert (L : (length g < 8)%nat) by lia. destruct (rd32 g) as [[lat r]|] eqn:E1; [|reflexivity]. cbn [unwrap obind].
    apply rd32_rest in E1. rewrite (rd32_len r) by lia. reflexivity.
  - pose proof E as E0. rewrite firstn_length in E0. rewrite <- (firstn_skipn 8 g) at 1. rewrite rd32_app by (rewrite firstn_length; lia).
    destruct (rd32 (firstn 8 g)) as [[lat r]|] eqn:E1; [|reflexivity]. cbn [unwrap obind]. apply rd32_rest in E1. rewrite rd32_app by lia. now destruct (rd32 r) as [[lon r2]|].
Qed.
Lemma get_same f g id : bytes_of f id = bytes_of g id -> st_get f id = st_get g id.
Proof. intros E. now rewrite !get_bytes, E. Qed.
Lemma get_prefix f j id : st_get (firstn j f) id = st_get f id \/ st_get (firstn j f) id = Panic.
Proof.
  destruct (le_lt_dec (Z.to_nat (id * 8) + 8) j) as [L|L].
  - left. apply get_same. unfold bytes_of. rewrite skipn_firstn_comm, firstn_firstn. f_equal. lia.
  - right. rewrite get_bytes. assert ((length (bytes_of (firstn j f) id) <? 8)%nat = true) as ->; [|reflexivity].
    unfold bytes_of. rewrite firstn_length, skipn_length, firstn_length. lia.
Qed.
Lemma get_whole f j id : (Z.to_nat (id * 8) + 8 <= j)%nat -> st_get (firstn j f) id = st_get f id.
Proof. intros L. apply get_same. unfold bytes_of. rewrite skipn_firstn_comm, firstn_firstn. f_equal. lia. Qed.

(** Writing the bytes of one id does not touch those of another. *)
Lemma bytes_other G i id y : 0 <= i -> 0 <= id -> i <> id -> (here id <= length G)%nat -> (length y <= 8)%nat ->
  bytes_of (write_at (here id) y G) i = bytes_of G i.
Proof.
  intros Hi H0 N HG Hy. rewrite write_at_in by exact HG. unfold bytes_of, here in *.
  assert (Lf : length (firstn (Z.to_nat (id * 8)) G) = Z.to_nat (id * 8)) by (rewrite firstn_length; lia).
  destruct (Z_lt_le_dec i id) as [L|L].
  - rewrite skipn_app, firstn_app, skipn_length, Lf. replace (8 - (Z.to_nat (id * 8) - Z.to_nat (i * 8)))%nat with O by lia.
    rewrite firstn_O, app_nil_r, skipn_firstn_comm, firstn_firstn. f_equal. lia.
  - rewrite app_assoc, skipn_app, app_length, Lf. rewrite (skipn_all2 (firstn _ G ++ y)) by (rewrite app_length, Lf; lia). cbn [app].
    rewrite skip_skip. f_equal. f_equal. lia.
Qed.
Lemma bytes_there G id y : (here id <= length G)%nat -> (length y <= 8)%nat ->
  bytes_of (write_at (here id) y G) id = y ++ skipn (length y) (bytes_of G id).
Proof.
  intros HG Hy. rewrite write_at_in by exact HG. unfold bytes_of. fold (here id).
  assert (Lf : length (firstn (here id) G) = here id) by (rewrite firstn_length; lia).
  rewrite skipn_app, Lf, Nat.sub_diag, (skipn_all2 (firstn _ _)) by lia. cbn [app]. change (skipn 0 ?x) with x.
  rewrite firstn_app, firstn_all2 by exact Hy. f_equal. rewrite <- skip_skip. generalize (skipn (here id) G). intros g.
  rewrite skipn_firstn_comm. reflexivity.
Qed.

(** The file of a history and a gap behind it. *)
Lemma base_get h id0 i : Forall good_set h -> 0 <= i ->
  (forall p, last_set h i = Some p -> ~ reserved p -> st_get (file h ++ gap h id0) i = Ret (Some p) /\ (Z.to_nat (i * 8) + 8 <= length (file h))%nat)
  /\ (last_set h i = None -> st_get (file h ++ gap h id0) i = Ret None \/ st_get (file h ++ gap h id0) i = Panic).
Proof.
  intros HF Hi. rewrite base_recs by exact HF. destruct (store_records h HF) as ((A & _) & B & D). destruct (D i Hi) as [D1 D2].
  rewrite st_get_recs; [|exact Hi|apply Forall_app; split; [exact B|]; apply Forall_forall; intros r Hr; apply repeat_spec in Hr; subst r; cbn; unfold in_i32, sentinel; lia].
  split.
  - intros p Hp Hr. assert (L : (Z.to_nat i < length (rec_sets h))%nat).
    { apply D1. exists i. destruct (existsb (fun o => fst o =? i) h) eqn:E.
      - apply existsb_exists in E as ([j q] & Hin & Hj). cbn [fst] in Hj. exists q. split; [|lia]. now replace i with j by lia.
      - rewrite last_set_none in Hp; [discriminate|]. intros q Hin. enough (existsb (fun o => fst o =? i) h = true) by congruence. apply existsb_exists. exists (i, q). split; [exact Hin|apply Z.eqb_refl]. }
    rewrite nth_error_app1, (D2 L), Hp by exact L. cbn [unwrap_or]. destruct p as [lat lon]. unfold reserved in Hr. cbn [fst snd] in Hr. split.
    + unfold sentinel. destruct (lat =? 2^31 - 1) eqn:E1; [lia|]. destruct (lon =? 2^31 - 1) eqn:E2; [lia|]. reflexivity.
    + unfold file. rewrite A, enc_recs_len. lia.
  - intros Hn. destruct (le_lt_dec (length (rec_sets h)) (Z.to_nat i)) as [L|L].
    + rewrite nth_error_app2 by exact L. destruct (nth_error (repeat _ _) _) as [r|] eqn:E; [|now right]. left. apply nth_error_In, repeat_spec in E. subst r. reflexivity.
    + left. rewrite nth_error_app1, (D2 L), Hn by exact L. reflexivity.
Qed.

(** The bytes of the id that is being set, before they are written. *)
Lemma bytes_past f i : (length f <= Z.to_nat (i * 8))%nat -> bytes_of f i = [].
Proof. intros H. unfold bytes_of. rewrite skipn_all2 by exact H. reflexivity. Qed.
Lemma bytes_gap h id : Forall good_set h -> 0 <= id ->
  bytes_of (file h ++ gap h id) id = bytes_of (file h) id \/ (bytes_of (file h) id = [] /\ exists j, bytes_of (file h ++ gap h id) id = firstn j nowhere).
Proof.
  intros HF H0. destruct (Z_le_gt_dec id (top h)) as [L|L].
  - left. unfold gap. replace (Z.to_nat (id - top h)) with O by lia. cbn [repeat concat]. now rewrite app_nil_r.
  - right. destruct (store_records h HF) as ((A & M) & _). fold (top h) in M. assert (Lr : (length (rec_sets h) <= Z.to_nat id)%nat) by (destruct M as [[-> _]|M]; cbn [length]; lia).
    split; [apply bytes_past; unfold file; rewrite A, enc_recs_len; lia|].
    rewrite base_recs by exact HF. unfold bytes_of. replace (Z.to_nat (id * 8)) with (8 * Z.to_nat id)%nat by lia. rewrite skipn_recs, skipn_app, skipn_all2 by exact Lr. cbn [app].
    remember (skipn _ (repeat _ _)) as l eqn:El. destruct l as [|r l]; [now exists O|]. exists 8%nat.
    assert (r = (sentinel, sentinel)) as ->; [|reflexivity]. eapply repeat_spec. rewrite <- (firstn_skipn (Z.to_nat id - length (rec_sets h))). apply in_or_app. right. rewrite <- El. now left.
Qed.

(** ** C129 *)

(** Whenever the writer stops: all calls that have returned are in the file except perhaps the
    last one.  Of that one, or of the one that was being made, some of the eight bytes may be
    there; all other ids have the positions of the calls before it. *)
Theorem C129_crash : forall hist s, Forall good_set hist -> wreach hist s ->
  exists h1 h2, hist = h1 ++ h2 /\ (length h1 <= returned hist s <= S (length h1))%nat
  /\ (forall id p, 0 <= id -> ~ In id (firstn 1 (map fst h2)) -> last_set h1 id = Some p -> ~ reserved p -> st_get (w_disk s) id = Ret (Some p))
  /\ (forall id, 0 <= id -> ~ In id (firstn 1 (map fst h2)) -> last_set h1 id = None -> st_get (w_disk s) id = Ret None \/ st_get (w_disk s) id = Panic)
  /\ (forall id p, hd_error h2 = Some (id, p) -> exists k old, bytes_of (w_disk s) id = firstn k (position p) ++ skipn k old
        /\ (old = bytes_of (st_file (st_sets h1)) id \/ (bytes_of (st_file (st_sets h1)) id = [] /\ exists j, old = firstn j nowhere))).
Proof.
  intros hist s HF R. apply inv_reach in R; [|exact HF].
  assert (REC : forall h id p0 cs x rest k d p b, hist = h ++ (id, p0) :: cs -> x ++ concat rest = position p0 -> seg (file h ++ gap h id) (here id) x k d p b ->
    (forall i q, 0 <= i -> ~ In i [id] -> last_set h i = Some q -> ~ reserved q -> st_get d i = Ret (Some q))
    /\ (forall i, 0 <= i -> ~ In i [id] -> last_set h i = None -> st_get d i = Ret None \/ st_get d i = Panic)
    /\ (forall i q, Some (id, p0) = Some (i, q) -> exists k old, bytes_of d i = firstn k (position q) ++ skipn k old
        /\ (old = bytes_of (st_file (st_sets h)) i \/ (bytes_of (st_file (st_sets h)) i = [] /\ exists j, old = firstn j nowhere)))).
  { intros h id p0 cs x rest k d p b E Ex (HP & Hk & Hd & _ & _). subst hist. apply Forall_app in HF as [Hh HF]. inversion HF as [|? ? Hg _]; subst.
    assert (H0 : 0 <= id) by (destruct p0; cbn in Hg; lia).
    assert (L8 : (length (firstn k x) <= 8)%nat) by (assert (length (position p0) = 8%nat) as L by reflexivity; rewrite <- Ex, app_length in L; rewrite firstn_length; lia).
    split; [|split].
    - intros i q Hi N Hq Hr. rewrite (get_same _ (file h ++ gap h id)); [now apply (base_get h id i)|]. apply bytes_other; try assumption; intros ->; apply N; now left.
    - intros i Hi N Hq. rewrite (get_same _ (file h ++ gap h id)); [now apply (base_get h id i)|]. apply bytes_other; try assumption; intros ->; apply N; now left.
    - intros i q [= <- <-]. exists (length (firstn k x)), (bytes_of (file h ++ gap h id) id). split; [|now apply bytes_gap].
      rewrite bytes_there by assumption. f_equal. rewrite <- Ex, firstn_app. rewrite firstn_length, Nat.min_l by exact Hk. replace (k - length x)%nat with O by lia. cbn [firstn]. now rewrite app_nil_r. }
  destruct R as [todo ops cs m H E|h id p0 todo k ops cs m d p b E H G|h id p0 cs x rest k m d p b E Ex Em G|h id p0 cs x rest k m d p b E Ex Er Em G]; cbn [w_disk].
  - exists [], hist. split; [reflexivity|]. split.
    { unfold returned. cbn [w_calls w_ops length]. destruct H as [(-> & -> & ->)|([id p] & -> & -> & ->)]; subst hist; [lia|]. cbn [length]. rewrite set_ops_cases. destruct (0 <? id); cbn [app]; lia. }
    split; [discriminate|]. split; [right; rewrite get_bytes, bytes_past by (cbn; lia); reflexivity|].
    intros id p _. exists O, []. split; [rewrite bytes_past by (cbn; lia); reflexivity|]. left. symmetry. apply bytes_past. cbn. lia.
  - exists h, ((id, p0) :: todo). split; [exact E|]. split.
    { unfold returned. cbn [w_calls w_ops]. rewrite E, app_length. cbn [length]. destruct H as [(-> & -> & ->)|([id' p'] & -> & -> & ->)]; [lia|]. cbn [length]. rewrite set_ops_cases. destruct (_ <? id'); cbn [app]; lia. }
    apply (REC h id p0 todo (position p0) [] k d p b E); [apply app_nil_r|exact G].
  - exists h, ((id, p0) :: cs). split; [exact E|]. split.
    { unfold returned. cbn [w_calls w_ops]. rewrite E, app_length. cbn [length]. destruct (map Put rest); cbn [app]; lia. }
    destruct G as (_ & Hk & Hd & _ & _). rewrite write_at_in, firstn_all, (skipn_all2 (file h)), app_nil_r in Hd by lia.
    assert (Hd' : d = firstn (length (file h) + k) (file h ++ gap h id)).
    { rewrite firstn_app_2, <- Ex, firstn_app. replace (k - length x)%nat with O by lia. cbn [firstn]. now rewrite app_nil_r. }
    clear Hd. subst d hist. apply Forall_app in HF as [Hh HF]. inversion HF as [|? ? Hg _]; subst. assert (H0 : 0 <= id) by (destruct p0; cbn in Hg; lia). split; [|split].
    + intros i q Hi _ Hq Hr. destruct (proj1 (base_get h id i Hh Hi) q Hq Hr) as [A B]. rewrite get_whole by lia. exact A.
    + intros i Hi _ Hq. destruct (get_prefix (file h ++ gap h id) (length (file h) + k) i) as [->| ->]; [|now right]. now apply (base_get h id i).
    + intros i q [= <- <-]. exists O, (bytes_of (firstn (length (file h) + k) (file h ++ gap h id)) id). split; [reflexivity|].
      assert (P : forall j, exists l, bytes_of (firstn j (file h ++ gap h id)) id = firstn l (bytes_of (file h ++ gap h id) id)).
      { intros j. exists (j - Z.to_nat (id * 8))%nat. unfold bytes_of. rewrite skipn_firstn_comm, !firstn_firstn. f_equal. lia. }
      destruct (bytes_gap h id Hh H0) as [B|(B & j & B')].
      * destruct (Z_le_gt_dec id (top h)) as [L|L].
        -- left. assert (Eg : gap h id = []) by (unfold gap; now replace (Z.to_nat (id - top h)) with O by lia). rewrite Eg, app_nil_r, firstn_all2 by lia. reflexivity.
        -- destruct (store_records h Hh) as ((A & M) & _). fold (top h) in M. right. assert (B0 : bytes_of (file h) id = []) by (apply bytes_past; unfold file; rewrite A, enc_recs_len; destruct M as [[-> _]|M]; cbn [length]; lia).
           split; [exact B0|]. destruct (P (length (file h) + k)%nat) as (l & ->). rewrite B, B0. exists O. now rewrite firstn_nil.
      * right. split; [exact B|]. destruct (P (length (file h) + k)%nat) as (l & ->). rewrite B', firstn_firstn. eauto.
  - exists h, ((id, p0) :: cs). split; [exact E|]. split.
    { unfold returned. cbn [w_calls w_ops]. rewrite E, app_length. cbn [length]. destruct rest; [congruence|]. cbn [map]. lia. }
    exact (REC h id p0 cs x rest k d p b E Ex G).
Qed.

(** After the writer is dropped, which passes on what is in its buffer, the file is the one of
    the model without buffer (C56). *)
Theorem C129_dropped : forall hist m d p, Forall good_set hist -> wreach hist (W [] [] m d p []) -> d = st_file (st_sets hist).
Proof.
  intros hist m d p HF R. apply inv_reach in R; [|exact HF].
  inversion R as [todo ops cs m' H E|h id p0 todo k ops cs m' d' p' b E H G|h id p0 cs x rest k m' d' p' b E Ex Em G E1|h id p0 cs x rest k m' d' p' b E Ex Er Em G]; subst.
  - destruct H as [(_ & <- & _)|(c & _ & Eo & _)]; [reflexivity|]. destruct c. rewrite set_ops_cases in Eo. now destruct (0 <? z).
  - destruct H as [(_ & <- & _)|(c & _ & Eo & _)]; [|destruct c; rewrite set_ops_cases in Eo; now destruct (_ <? z)].
    fold (file (h ++ [(id, p0)])). rewrite file_snoc. exact (seg_done _ _ _ _ _ _ G).
  - now destruct rest.
  - now destruct rest.
Qed.

(** A run given by the number of bytes passed on at each moment, to build examples. *)
Lemma run_call hist c cs m d p b : wreach hist (W (c :: cs) [] m d p b) -> wreach hist (W cs (set_ops m c) (Z.max m (fst c)) d p b).
Proof. intros R. eapply wr_step; [exact R|constructor]. Qed.
Lemma run_put hist x cs r m d p b : wreach hist (W cs (Put x :: r) m d p b) -> wreach hist (W cs r m d p (b ++ x)).
Proof. intros R. eapply wr_step; [exact R|constructor]. Qed.
Lemma run_start hist q cs r m d p : wreach hist (W cs (SeekStart q :: r) m d p []) -> wreach hist (W cs r m d q []).
Proof. intros R. eapply wr_step; [exact R|constructor]. Qed.
Lemma run_flush hist n cs r m d p b : wreach hist (W cs r m d p b) -> (0 < n <= length b)%nat ->
  wreach hist (W cs r m (write_at p (firstn n b) d) (p + n) (skipn n b)).
Proof. intros R H. eapply wr_step; [exact R|now constructor]. Qed.

Definition ex_hist : list (Z * (Z * Z)) := [(0, (1, 2)); (0, (3, 4))].
(** The first call has returned and nothing is in the file. *)
Lemma ex_first : wreach ex_hist (W [(0, (3, 4))] [] 0 [] 0 (position (1, 2))).
Proof.
  pose proof (wr_create ex_hist) as R. apply run_call in R. change (set_ops 0 (0, (1, 2))) with [SeekStart 0; Put (be32 1); Put (be32 2)] in R.
  apply run_start in R. now apply run_put, run_put in R.
Qed.
(** The second call has returned, and four of its bytes are in the file. *)
Lemma ex_second : wreach ex_hist (W [] [] 0 (be32 3 ++ be32 2) 4 (be32 4)).
Proof.
  pose proof ex_first as R. apply (run_flush _ 8) in R; [|cbn; lia]. apply run_call in R.
  change (set_ops 0 (0, (3, 4))) with [SeekStart 0; Put (be32 3); Put (be32 4)] in R. apply (run_start _ 0%nat) in R. apply run_put, run_put in R.
  apply (run_flush _ 4) in R; [|cbn; lia]. exact R.
Qed.

(** "What a call that has returned has set is in the file" is false. *)
Theorem C129_returned_refuted : ~ forall hist s id p, Forall good_set hist -> wreach hist s ->
  last_set (firstn (returned hist s) hist) id = Some p -> ~ reserved p -> st_get (w_disk s) id = Ret (Some p).
Proof.
  intros H. specialize (H ex_hist _ 0 (1, 2) ltac:(repeat constructor; cbn; lia) ex_first). cbn in H.
  assert (X : @Panic (option (Z * Z)) = Ret (Some (1, 2))); [|discriminate X]. apply H; [reflexivity|]. unfold reserved. cbn. lia.
Qed.
(** "A position that is found was set" is false: it may be a mixture of an old and a new one. *)
Theorem C129_torn_refuted : ~ forall hist s id p, Forall good_set hist -> wreach hist s ->
  st_get (w_disk s) id = Ret (Some p) -> In (id, p) hist.
Proof.
  intros H. specialize (H ex_hist _ 0 (3, 2) ltac:(repeat constructor; cbn; lia) ex_second eq_refl).
  destruct H as [H|[H|[]]]; discriminate H.
Qed.
Example C129_ex : Forall good_set ex_hist /\ exists s, wreach ex_hist s /\ returned ex_hist s = 2%nat /\ st_get (w_disk s) 0 = Ret (Some (3, 4))
  /\ w_calls s = [] /\ w_ops s = [] /\ w_buf s = [].
Proof.
  split; [repeat constructor; cbn; lia|]. pose proof ex_second as R. apply (run_flush _ 4) in R; [|cbn; lia]. eexists. split; [exact R|]. repeat split; vm_compute; reflexivity.
Qed.
Print Assumptions C129_crash.
Print Assumptions C129_dropped.
Print Assumptions C129_returned_refuted.
Print Assumptions C129_torn_refuted.
