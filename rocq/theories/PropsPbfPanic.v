(** What the PBF readers do when a panic is caught and reading goes on (C113). *)
From Coq Require Import String ZArith List Bool Lia.
From Coq Require Import ZifyBool ZifyNat.
From Verif Require Import Base Utf8 Timestamp Obj PbWire PbMsg PbMsgFacts PbfRead PbfPanic SpecPbf SpecIter PbfFrame PbfFacts XmlToken XmlRead PropsPbfFile PropsPbfBlock.
Import ListNotations.
Open Scope Z_scope.

(** ** Specification *)

(** The answers to repeated calls up to the first that reports the end, whatever the calls
    before it did; the state [s'] is left. *)
Inductive Answers {St A} (next : St -> answer A * St) : St -> list (answer A) -> St -> Prop :=
| Answers_end s s' : next s = (Ends, s') -> Answers next s [] s'
| Answers_more s x s1 l s' : next s = (x, s1) -> x <> Ends -> Answers next s1 l s' -> Answers next s (x :: l) s'.

(** The first [k] objects of a group. *)
Definition cut_group (k : nat) (g : pgroup) : pgroup :=
  PGroup (pg_nodes g)
    (opt_map (fun d => DenseNodes (firstn k (dn_id d)) (dn_info d) (dn_lat d) (dn_lon d) (dn_keys_vals d)) (pg_dense g))
    (firstn k (pg_ways g)) (firstn k (pg_rels g)) (pg_changesets g).
Definition with_groups (b : pblock) (gs : list pgroup) : pblock :=
  PBlock (pb_strings b) gs (pb_granularity b) (pb_lat_offset b) (pb_lon_offset b) (pb_date_granularity b).
(** Beginnings of a block with one group; of a block with any number of groups. *)
Definition one_group_beginning (b b' : pblock) : Prop :=
  exists g k, pb_groups b = [g] /\ b' = with_groups b [cut_group k g].
Definition beginning (b b' : pblock) : Prop :=
  exists j, b' = with_groups b (firstn j (pb_groups b)) \/
    exists g k, nth_error (pb_groups b) j = Some g /\ b' = with_groups b (firstn j (pb_groups b) ++ [cut_group k g]).
(** [l] are the objects of the longest beginning that can be decoded; none, if no beginning can. *)
Definition longest {A} (dec : pblock -> outcome (list A)) (begins : pblock -> Prop) (l : list A) : Prop :=
  (l = [] \/ exists b', begins b' /\ dec b' = Ret l) /\
  forall b' l', begins b' -> dec b' = Ret l' -> exists r, l = l' ++ r.

(** The objects of a damaged blob that are not lost: those of the longest beginning, if its
    data can be had at all and is a block. *)
Definition saved {A} (rt : pbrt) (data : outcome bytes) (dec : pblock -> outcome (list A))
    (begins : pblock -> pblock -> Prop) (l : list A) : Prop :=
  match data with
  | Ret d => match parse_block rt d with Some b => longest dec (begins b) l | None => l = [] end
  | Panic => l = []
  end.

(** The answers to one frame: nothing for a frame that is not of type OSMData; the objects of
    its blob if all is well; else a panic and then what is saved. *)
Definition frame_answers {A} (rt : pbrt) (dec : blob -> outcome (list A)) (keep : blob -> list A -> Prop)
    (f : frame) (l : list (answer A)) : Prop :=
  if is_data f then
    match parse_blob rt (fr_data f) with
    | None => l = [Panics]
    | Some b =>
        match dec b with
        | Ret os => l = map Gives os
        | Panic => exists os, l = Panics :: map Gives os /\ keep b os
        end
    end
  else l = [].
Definition s_frame rt chk inflate flt := frame_answers rt (s_blob rt chk inflate flt)
  (fun b => saved rt (s_blob_data inflate b) (s_decode_block chk flt) one_group_beginning).
Definition p_frame rt chk inflate := frame_answers rt (p_blob rt chk inflate)
  (fun b => saved rt (s_blob_data inflate b) (p_decode_block chk) beginning).
Definition a_frame rt chk inflate := frame_answers rt (a_blob rt chk inflate) (fun _ os => os = []).

(** ** Blobs *)

Lemma nbp_irrel rt : forall f1 f2 src, (length src < f1)%nat -> (length src < f2)%nat ->
  next_blob_p_fuel rt f1 src = next_blob_p_fuel rt f2 src.
Proof.
  induction f1 as [|f1 IH]; intros f2 src H1 H2; [lia|]. destruct f2 as [|f2]; [lia|].
  cbn [next_blob_p_fuel]. destruct (read_u32_be src) as [[n|] r] eqn:E; [|easy].
  apply read_u32_rest in E. unfold read_exact_p at 1 3. destruct (n <? 0); [easy|]. destruct (take n r) as [[hb r1]|] eqn:E1; [|easy].
  apply take_rest in E1. destruct (parse_header rt hb) as [h|]; [|easy].
  unfold read_exact_p. destruct (_ <? 0); [easy|]. destruct (take _ r1) as [[bb r2]|] eqn:E2; [|easy].
  apply take_rest in E2. destruct (bh_type h) as [ty|]; [|easy].
  destruct (str_eqb ty (lit "OSMData")); [easy|]. cbn [negb]. apply IH; lia.
Qed.

Definition agrees (src : bytes) (t : answer blob * bytes) (o : outcome (option blob * bytes)) : Prop :=
  (fst t = Ends -> snd t = []) /\ (fst t <> Ends -> (length (snd t) < length src)%nat) /\
  o = match t with (Gives b, r) => Ret (Some b, r) | (Ends, r) => Ret (None, r) | (Panics, _) => Panic end.

Lemma nbp_spec rt : forall f src, (length src < f)%nat ->
  agrees src (next_blob_p_fuel rt f src) (next_blob_fuel rt f src).
Proof.
  induction f as [|f IH]; intros src Hf; [lia|]. cbn [next_blob_p_fuel next_blob_fuel].
  destruct (read_u32_be src) as [[n|] r] eqn:E.
  2: { unfold agrees. cbn. split; [intros _|split; [easy|reflexivity]]. destruct src as [|a [|b [|c [|d src]]]]; cbn in E; now injection E. }
  apply read_u32_rest in E.
  assert (X : forall x : bytes, (length x <= length r)%nat -> agrees src (Panics, x) Panic).
  { intros x Hx. unfold agrees. cbn. split; [easy|]. split; [intros _; lia|reflexivity]. }
  unfold read_exact_p at 1, read_exact at 1.
  destruct (n <? 0); [now apply X|]. destruct (take n r) as [[hb r1]|] eqn:E1; [|apply X; cbn; lia].
  apply take_rest in E1. cbn [unwrap obind]. destruct (parse_header rt hb) as [h|]; [|apply X; cbn; lia]. cbn [unwrap obind].
  unfold read_exact_p, read_exact. destruct (_ <? 0); [now apply X|]. destruct (take _ r1) as [[bb r2]|] eqn:E2; [|apply X; cbn; lia].
  apply take_rest in E2. cbn [unwrap obind]. destruct (bh_type h) as [ty|]; [|apply X; cbn; lia]. cbn [unwrap obind].
  destruct (str_eqb ty (lit "OSMData")); cbn [negb].
  - destruct (parse_blob rt bb) as [b|]; cbn [unwrap obind]; [|apply X; cbn; lia]. unfold agrees. cbn. split; [easy|]. split; [intros _; lia|reflexivity].
  - destruct (IH r2) as (A & B & C); [lia|]. split; [exact A|]. split; [intros N; specialize (B N); lia|exact C].
Qed.

Lemma nbp_frame rt f r : frame_ok f ->
  next_blob_p rt (frame_bytes f ++ r) =
  if is_data f then match parse_blob rt (fr_data f) with Some b => (Gives b, r) | None => (Panics, r) end
  else next_blob_p rt r.
Proof.
  intros Hf. pose proof (frame_header_parse rt f Hf) as Hp. destruct Hf as (H1 & H2 & H3).
  unfold next_blob_p at 1. cbn [next_blob_p_fuel]. unfold frame_bytes. rewrite <- !app_assoc.
  rewrite read_u32_be32 by lia. unfold read_exact_p at 1.
  replace (Z.of_nat (length (frame_header f)) <? 0) with false by lia. rewrite take_app by easy.
  rewrite Hp. cbn [bh_datasize unwrap_or bh_type]. unfold read_exact_p.
  replace (Z.of_nat (length (fr_data f)) <? 0) with false by lia. rewrite take_app by easy. fold (is_data f).
  destruct (is_data f); cbn [negb]; [now destruct (parse_blob _ _)|].
  apply nbp_irrel; [|lia]. rewrite !app_length. cbn [length be32]. lia.
Qed.

(** ** Readers *)

Section Reader.
Context {A : Type} (rt : pbrt) (decode : blob -> list A * bool).

Lemma refill_irrel : forall f1 f2 src, (length src < f1)%nat -> (length src < f2)%nat ->
  refill_p rt decode f1 src = refill_p rt decode f2 src.
Proof.
  induction f1 as [|f1 IH]; intros f2 src H1 H2; [lia|]. destruct f2 as [|f2]; [lia|]. cbn [refill_p].
  destruct (nbp_spec rt (S (length src)) src) as (_ & L & _); [lia|]. fold (next_blob_p rt src) in L.
  destruct (next_blob_p rt src) as [[b| |] r]; [|reflexivity|reflexivity]. cbn [fst snd] in L.
  specialize (L ltac:(discriminate)). destruct (decode b) as [[|a l] []]; try reflexivity. apply IH; lia.
Qed.

Lemma next_p_turn src :
  next_p rt decode (src, []) =
  match next_blob_p rt src with
  | (Ends, r) => (Ends, (r, []))
  | (Panics, r) => (Panics, (r, []))
  | (Gives b, r) =>
      match decode b with
      | (l, false) => (Panics, (r, l))
      | ([], true) => next_p rt decode (r, [])
      | (a :: l, true) => (Gives a, (r, l))
      end
  end.
Proof.
  unfold next_p. cbn [refill_p]. destruct (nbp_spec rt (S (length src)) src) as (_ & L & _); [lia|]. fold (next_blob_p rt src) in L.
  destruct (next_blob_p rt src) as [[b| |] r]; [|reflexivity|reflexivity]. cbn [fst snd] in L. specialize (L ltac:(discriminate)).
  destruct (decode b) as [[|a l] []]; try reflexivity. now rewrite (refill_irrel (length src) (S (length r)) r) by lia.
Qed.

Lemma answers_buf src l rs s : Answers (next_p rt decode) (src, []) rs s -> Answers (next_p rt decode) (src, l) (map Gives l ++ rs) s.
Proof. intros H. induction l as [|a l IH]; [exact H|]. cbn [map app]. eapply Answers_more; [reflexivity|discriminate|exact IH]. Qed.

Lemma answers_eq {St B} (next : St -> answer B * St) s1 s2 rs s : next s1 = next s2 -> Answers next s2 rs s -> Answers next s1 rs s.
Proof.
  intros E H. destruct H as [s2 s' H|s2 x s3 l s' H N R]; [apply Answers_end|eapply Answers_more; [|exact N|exact R]]; congruence.
Qed.

Lemma answers_frames (ans : frame -> list (answer A) -> Prop) fs tail rs s : Forall frame_ok fs ->
  (forall f l, ans f l ->
     if is_data f then match parse_blob rt (fr_data f) with
                       | None => l = [Panics]
                       | Some b => l = (if snd (decode b) then [] else [Panics]) ++ map Gives (fst (decode b))
                       end
     else l = []) ->
  forall ls, Forall2 ans fs ls ->
  Answers (next_p rt decode) (tail, []) rs s -> Answers (next_p rt decode) (file_bytes fs ++ tail, []) (concat ls ++ rs) s.
Proof.
  intros Hf Ha ls HF HR. induction HF as [|f l fs ls HA HF IH]; [exact HR|].
  pose proof (Forall_inv Hf) as F1. specialize (IH (Forall_inv_tail Hf)). cbn [concat file_bytes flat_map]. fold (file_bytes fs).
  rewrite <- !app_assoc. apply Ha in HA. pose proof (next_p_turn (frame_bytes f ++ file_bytes fs ++ tail)) as T.
  rewrite nbp_frame in T by exact F1. destruct (is_data f).
  - destruct (parse_blob rt (fr_data f)) as [b|].
    + destruct (decode b) as [os ok]. cbn [fst snd] in HA. subst l. destruct ok.
      * destruct os as [|a os]; cbn [app map].
        -- eapply answers_eq; [exact T|exact IH].
        -- eapply Answers_more; [exact T|discriminate|]. apply answers_buf. exact IH.
      * rewrite <- app_assoc. cbn [app]. eapply Answers_more; [destruct os; exact T|discriminate|]. apply answers_buf. exact IH.
    + subst l. eapply Answers_more; [exact T|discriminate|exact IH].
  - subst l. cbn [app]. eapply answers_eq; [|exact IH]. rewrite T. symmetry. apply next_p_turn.
Qed.

(** Reading comes to an end. *)
Lemma answers_total : forall n src buf, (length src < n)%nat -> exists rs, Answers (next_p rt decode) (src, buf) rs ([], []).
Proof.
  induction n as [|n IH]; intros src buf Hn; [lia|].
  cut (exists rs, Answers (next_p rt decode) (src, []) rs ([], [])).
  { intros (rs & H). eexists. apply answers_buf. exact H. }
  pose proof (next_p_turn src) as T. destruct (nbp_spec rt (S (length src)) src) as (E & L & _); [lia|].
  fold (next_blob_p rt src) in E, L. destruct (next_blob_p rt src) as [[b| |] r]; cbn [fst snd] in *.
  - specialize (L ltac:(discriminate)). destruct (decode b) as [l ok].
    destruct (IH r l) as (rs & H); [lia|]. destruct ok.
    + destruct l as [|a l].
      * exists rs. eapply answers_eq; [exact T|exact H].
      * destruct (IH r l) as (rs' & H'); [lia|]. eexists. eapply Answers_more; [exact T|discriminate|exact H'].
    + eexists. eapply Answers_more; [destruct l; exact T|discriminate|exact H].
  - rewrite (E eq_refl) in *. exists []. now apply Answers_end.
  - specialize (L ltac:(discriminate)). destruct (IH r []) as (rs & H); [lia|]. eexists. eapply Answers_more; [exact T|discriminate|exact H].
Qed.

End Reader.

(** ** Pushing and decoding *)

Definition result {A} (p : list A * bool) : outcome (list A) := if snd p then Ret (fst p) else Panic.

Lemma push_each_decodes {A B} (f : A -> outcome B) l : omapM f l = result (push_each f l).
Proof.
  unfold result. induction l as [|a l IH]; [reflexivity|]. cbn [omapM push_each]. destruct (f a) as [b|]; [|reflexivity]. cbn [obind].
  rewrite IH. destruct (push_each f l) as [bs ok]. now destruct ok.
Qed.
Lemma push_each_prefix {A B} (f : A -> outcome B) l : forall k l', omapM f (firstn k l) = Ret l' -> exists r, fst (push_each f l) = l' ++ r.
Proof.
  induction l as [|a l IH]; intros k l' H.
  - rewrite firstn_nil in H. injection H as <-. now exists [].
  - destruct k as [|k]; [injection H as <-; now eexists|]. cbn [firstn omapM push_each] in *. destruct (f a) as [b|]; [|discriminate].
    cbn [obind] in H. destruct (omapM f (firstn k l)) as [bs|] eqn:E; [|discriminate]. injection H as <-.
    apply IH in E as (r & E). destruct (push_each f l) as [bs' ok]. cbn [fst] in *. exists r. now rewrite E.
Qed.
Lemma push_each_reached {A B} (f : A -> outcome B) l : exists k, omapM f (firstn k l) = Ret (fst (push_each f l)).
Proof.
  induction l as [|a l (k & IH)]; [now exists O|]. cbn [push_each]. destruct (f a) as [b|] eqn:E; [|now exists O].
  exists (S k). cbn [firstn omapM]. rewrite E. cbn [obind]. rewrite IH. now destruct (push_each f l).
Qed.

Section Dense.
Context {A : Type} (step : nat -> dense_state -> outcome (A * dense_state)).
Lemma push_dense_decodes : forall n i s, dense_loop step n i s = result (push_dense step n i s).
Proof.
  unfold result. induction n as [|n IH]; intros i s; [reflexivity|]. cbn [dense_loop push_dense]. destruct (step i s) as [[o s']|]; [|reflexivity].
  cbn [obind]. rewrite IH. destruct (push_dense step n (S i) s') as [bs ok]. now destruct ok.
Qed.
Lemma push_dense_prefix : forall n i s m l', (m <= n)%nat -> dense_loop step m i s = Ret l' -> exists r, fst (push_dense step n i s) = l' ++ r.
Proof.
  induction n as [|n IH]; intros i s m l' L H.
  - assert (m = O) as -> by lia. injection H as <-. now exists [].
  - destruct m as [|m]; [injection H as <-; now eexists|]. cbn [dense_loop push_dense] in *. destruct (step i s) as [[o s']|]; [|discriminate].
    cbn [obind] in H. destruct (dense_loop step m (S i) s') as [bs|] eqn:E; [|discriminate]. injection H as <-.
    apply (IH (S i) s' m bs ltac:(lia)) in E as (r & E). destruct (push_dense step n (S i) s') as [bs' ok]. cbn [fst] in *. exists r. now rewrite E.
Qed.
Lemma push_dense_reached : forall n i s, exists m, (m <= n)%nat /\ dense_loop step m i s = Ret (fst (push_dense step n i s)).
Proof.
  induction n as [|n IH]; intros i s; [now exists O|]. cbn [push_dense]. destruct (step i s) as [[o s']|] eqn:E; [|exists O; split; [lia|reflexivity]].
  destruct (IH (S i) s') as (m & L & H). exists (S m). split; [lia|]. cbn [dense_loop]. rewrite E. cbn [obind]. rewrite H.
  now destruct (push_dense step n (S i) s').
Qed.
Lemma dense_loop_ext (step' : nat -> dense_state -> outcome (A * dense_state)) : forall n i s,
  (forall j s, (i <= j < i + n)%nat -> step' j s = step j s) -> dense_loop step' n i s = dense_loop step n i s.
Proof.
  induction n as [|n IH]; intros i s H; [reflexivity|]. cbn [dense_loop]. rewrite H by lia. destruct (step i s) as [[o s']|]; [|reflexivity].
  cbn [obind]. rewrite IH; [reflexivity|]. intros j s0 Hj. apply H. lia.
Qed.
End Dense.

Lemma at_firstn {A} (l : list A) k i : (i < k)%nat -> at_ (firstn k l) i = at_ l i.
Proof.
  intros H. unfold at_. f_equal. revert k i H. induction l as [|a l IH]; intros k i H; [now rewrite firstn_nil|].
  destruct k as [|k]; [lia|]. destruct i as [|i]; [reflexivity|]. cbn [firstn nth_error]. apply IH. lia.
Qed.

(** What is pushed of a group is what its longest beginning gives. *)
Definition group_longest {A} (dec : pgroup -> outcome (list A)) (g : pgroup) (l : list A) : Prop :=
  (l = [] \/ exists k, dec (cut_group k g) = Ret l) /\ forall k l', dec (cut_group k g) = Ret l' -> exists r, l = l' ++ r.

Lemma longest_none {A} (dec : pgroup -> outcome (list A)) g : (forall k, dec (cut_group k g) = Panic \/ dec (cut_group k g) = Ret []) ->
  group_longest dec g [].
Proof.
  intros H. split; [now left|]. intros k l' E. destruct (H k) as [E'|E']; rewrite E' in E; [discriminate|]. injection E as <-. now exists [].
Qed.

Lemma longest_dense {A} (dec : pgroup -> outcome (list A)) (step : dense_nodes -> nat -> dense_state -> outcome (A * dense_state)) s0 g d :
  (forall k, dec (cut_group k g) =
     let d' := DenseNodes (firstn k (dn_id d)) (dn_info d) (dn_lat d) (dn_lon d) (dn_keys_vals d) in
     dense_loop (step d') (length (dn_id d')) 0 s0) ->
  (forall k i s, (i < k)%nat -> step (DenseNodes (firstn k (dn_id d)) (dn_info d) (dn_lat d) (dn_lon d) (dn_keys_vals d)) i s = step d i s) ->
  group_longest dec g (fst (push_dense (step d) (length (dn_id d)) 0 s0)).
Proof.
  intros Hd Hs.
  assert (E : forall k, dec (cut_group k g) = dense_loop (step d) (Nat.min k (length (dn_id d))) 0 s0).
  { intros k. rewrite Hd. cbn [dn_id]. rewrite firstn_length. apply dense_loop_ext. intros j s Hj. apply Hs. lia. }
  split.
  - right. destruct (push_dense_reached (step d) (length (dn_id d)) 0 s0) as (m & L & H). exists m. rewrite E. now replace (Nat.min m (length (dn_id d))) with m by lia.
  - intros k l' H. rewrite E in H. eapply push_dense_prefix; [|exact H]. lia.
Qed.

Lemma longest_each {A B} (dec : pgroup -> outcome (list B)) (f : A -> outcome B) g l :
  (forall k, dec (cut_group (S k) g) = omapM f (firstn (S k) l)) -> (dec (cut_group 0 g) = Ret [] \/ dec (cut_group 0 g) = Panic) ->
  group_longest dec g (fst (push_each f l)).
Proof.
  intros H H0. split.
  - destruct (push_each_reached f l) as ([|k] & E).
    + left. now injection E as <-.
    + right. exists (S k). now rewrite H.
  - intros [|k] l' E.
    + destruct H0 as [H0|H0]; rewrite H0 in E; [|discriminate]. injection E as <-. now eexists.
    + rewrite H in E. eapply push_each_prefix; exact E.
Qed.

Lemma cut_dense k g : pg_dense (cut_group k g) = opt_map (fun d => DenseNodes (firstn k (dn_id d)) (dn_info d) (dn_lat d) (dn_lon d) (dn_keys_vals d)) (pg_dense g).
Proof. reflexivity. Qed.

Lemma s_push_group_decodes chk gran lato lono dg raw flt g :
  s_decode_group chk gran lato lono dg raw flt g = result (s_push_group chk gran lato lono dg raw flt g).
Proof.
  unfold s_decode_group, s_push_group, s_decode_dense. destruct (_ && _); [reflexivity|].
  destruct (is_some (pg_dense g) && _); [destruct (s_strings raw); [apply push_dense_decodes|reflexivity]|].
  destruct (nonempty (pg_ways g) && _); [destruct (s_strings raw); [apply push_each_decodes|reflexivity]|].
  destruct (nonempty (pg_rels g) && _); [destruct (s_strings raw); [apply push_each_decodes|reflexivity]|reflexivity].
Qed.

Lemma s_group_longest chk gran lato lono dg raw flt g :
  group_longest (s_decode_group chk gran lato lono dg raw flt) g (fst (s_push_group chk gran lato lono dg raw flt g)).
Proof.
  unfold s_push_group. destruct (nonempty (pg_nodes g) && f_nodes flt) eqn:E1.
  { apply longest_none. intros k. left. unfold s_decode_group. cbn [pg_nodes cut_group]. now rewrite E1. }
  destruct (is_some (pg_dense g) && f_nodes flt) eqn:E2.
  { assert (E2' : forall k, is_some (pg_dense (cut_group k g)) && f_nodes flt = true) by (intros k; rewrite cut_dense; now destruct (pg_dense g)).
    destruct (s_strings raw) as [st|] eqn:Es.
    - destruct (pg_dense g) as [d|] eqn:Ed; [|discriminate].
      apply (longest_dense _ (fun d => s_dense_step chk gran lato lono (Z.quot dg 1000) st d (unwrap_or (dn_info d) di0)) (ds0 (dn_keys_vals d)) g d).
      + intros k. unfold s_decode_group. rewrite E2'. cbn [pg_nodes pg_dense cut_group]. rewrite E1, Es, Ed. reflexivity.
      + intros k i s Hi. unfold s_dense_step. cbn [dn_id dn_info dn_lat dn_lon]. now rewrite at_firstn.
    - apply longest_none. intros k. left. unfold s_decode_group. rewrite E2'. cbn [pg_nodes cut_group]. now rewrite E1, Es. }
  assert (E2' : forall k, is_some (pg_dense (cut_group k g)) && f_nodes flt = false) by (intros k; rewrite cut_dense; now destruct (pg_dense g)).
  assert (E0 : s_decode_group chk gran lato lono dg raw flt (cut_group 0 g) = Ret []).
  { unfold s_decode_group. rewrite E2'. cbn [pg_nodes cut_group]. rewrite E1. reflexivity. }
  destruct (nonempty (pg_ways g) && f_ways flt) eqn:E3.
  { assert (E3' : forall k, nonempty (firstn (S k) (pg_ways g)) && f_ways flt = true) by (intros k; now destruct (pg_ways g)).
    destruct (s_strings raw) as [st|] eqn:Es.
    - apply longest_each; [|now left]. intros k. unfold s_decode_group. rewrite E2'. cbn [pg_nodes pg_ways cut_group]. now rewrite E1, E3', Es.
    - apply longest_none. intros [|k]; [now right|left]. unfold s_decode_group. rewrite E2'. cbn [pg_nodes pg_ways cut_group]. now rewrite E1, E3', Es. }
  assert (E3' : forall k, nonempty (firstn k (pg_ways g)) && f_ways flt = false) by (intros [|k]; destruct (pg_ways g); try reflexivity; exact E3).
  destruct (nonempty (pg_rels g) && f_rels flt) eqn:E4.
  { assert (E4' : forall k, nonempty (firstn (S k) (pg_rels g)) && f_rels flt = true) by (intros k; now destruct (pg_rels g)).
    destruct (s_strings raw) as [st|] eqn:Es.
    - apply longest_each; [|now left]. intros k. unfold s_decode_group. rewrite E2'. cbn [pg_nodes pg_ways pg_rels cut_group]. now rewrite E1, E3', E4', Es.
    - apply longest_none. intros [|k]; [now right|left]. unfold s_decode_group. rewrite E2'. cbn [pg_nodes pg_ways pg_rels cut_group]. now rewrite E1, E3', E4', Es. }
  apply longest_none. intros k. right. unfold s_decode_group. rewrite E2'. cbn [pg_nodes pg_ways pg_rels cut_group]. rewrite E1, E3'.
  replace (nonempty (firstn k (pg_rels g)) && f_rels flt) with false; [reflexivity|]. destruct k; destruct (pg_rels g); try reflexivity; now rewrite <- E4.
Qed.

Lemma s_push_blob_decodes rt chk inflate flt b : s_blob rt chk inflate flt b = result (s_push_blob rt chk inflate flt b).
Proof.
  unfold s_blob, s_push_blob. destruct (s_blob_data inflate b) as [[|x data]|]; [reflexivity| |reflexivity]. cbn [obind].
  destruct (parse_block rt _) as [blk|]; [|reflexivity]. cbn [unwrap obind]. unfold s_decode_block, s_push_block.
  destruct (pb_strings blk) as [raw|]; [|reflexivity]. cbn [unwrap obind]. destruct (pb_groups blk) as [|g []]; [reflexivity| |reflexivity].
  apply s_push_group_decodes.
Qed.

Lemma s_blob_saved rt chk inflate flt b : s_blob rt chk inflate flt b = Panic ->
  saved rt (s_blob_data inflate b) (s_decode_block chk flt) one_group_beginning (fst (s_push_blob rt chk inflate flt b)).
Proof.
  unfold s_blob, saved, s_push_blob. destruct (s_blob_data inflate b) as [data|]; [|reflexivity]. cbn [obind].
  destruct data as [|x data]; [discriminate|]. set (dd := x :: data). intros _.
  destruct (parse_block rt dd) as [blk|]; [|reflexivity]. unfold s_push_block.
  destruct (pb_strings blk) as [raw|] eqn:Er.
  2: { split; [now left|]. intros b' l' (g & k & Eg & ->) E. unfold s_decode_block in E. cbn [pb_strings with_groups] in E. rewrite Er in E. discriminate. }
  destruct (pb_groups blk) as [|g [|g2 gs]] eqn:Eg.
  1, 3: split; [now left|]; intros b' l' (g' & k & Eg' & ->) E; congruence.
  destruct (s_group_longest chk (granularity blk) (lat_offset blk) (lon_offset blk) (date_granularity blk) raw flt g) as (L1 & L2).
  assert (D : forall k, s_decode_block chk flt (with_groups blk [cut_group k g]) =
    s_decode_group chk (granularity blk) (lat_offset blk) (lon_offset blk) (date_granularity blk) raw flt (cut_group k g)).
  { intros k. unfold s_decode_block. cbn [pb_strings pb_groups with_groups]. now rewrite Er. }
  split.
  - destruct L1 as [L1|(k & L1)]; [now left|right]. eexists. split; [exists g, k; split; [exact Eg|reflexivity]|]. now rewrite D.
  - intros b' l' (g' & k & Eg' & ->) E. rewrite Eg in Eg'. injection Eg' as <-. rewrite D in E. now apply L2 in E.
Qed.

Lemma p_group_longest chk gran lato lono g :
  group_longest (p_decode_group chk gran lato lono) g (fst (p_push_group chk gran lato lono g)).
Proof.
  unfold p_push_group. destruct (nonempty (pg_nodes g)) eqn:E1.
  { apply longest_none. intros k. left. unfold p_decode_group. cbn [pg_nodes cut_group]. now rewrite E1. }
  assert (D : forall k, nonempty (firstn k (pg_ways g)) || nonempty (firstn k (pg_rels g)) = false ->
    p_decode_group chk gran lato lono (cut_group k g) =
    match pg_dense g with
    | Some d => let d' := DenseNodes (firstn k (dn_id d)) (dn_info d) (dn_lat d) (dn_lon d) (dn_keys_vals d) in
                dense_loop (p_dense_step chk gran lato lono d') (length (dn_id d')) 0 (ds0 [])
    | None => Panic end).
  { intros k E. unfold p_decode_group. cbn [pg_nodes pg_ways pg_rels pg_dense cut_group]. rewrite E1, E. now destruct (pg_dense g). }
  destruct (nonempty (pg_ways g) || nonempty (pg_rels g)) eqn:E2.
  { apply longest_none. intros [|k].
    - rewrite D by reflexivity. destruct (pg_dense g); [now right|now left].
    - right. unfold p_decode_group. cbn [pg_nodes pg_ways pg_rels cut_group]. rewrite E1.
      replace (nonempty (firstn (S k) (pg_ways g)) || nonempty (firstn (S k) (pg_rels g))) with true; [reflexivity|].
      destruct (pg_ways g), (pg_rels g); try reflexivity; discriminate. }
  assert (E : forall k, nonempty (firstn k (pg_ways g)) || nonempty (firstn k (pg_rels g)) = false).
  { intros k. destruct (pg_ways g), (pg_rels g); try discriminate. now rewrite !firstn_nil. }
  destruct (pg_dense g) as [d|] eqn:Ed.
  - apply (longest_dense _ (fun d => p_dense_step chk gran lato lono d) (ds0 []) g d).
    + intros k. now rewrite D by apply E.
    + intros k i s Hi. unfold p_dense_step. cbn [dn_id dn_lat dn_lon]. now rewrite at_firstn.
  - apply longest_none. intros k. left. now rewrite D by apply E.
Qed.

Lemma p_push_group_decodes chk gran lato lono g : p_decode_group chk gran lato lono g = result (p_push_group chk gran lato lono g).
Proof.
  unfold p_decode_group, p_push_group, p_decode_dense. destruct (nonempty _); [reflexivity|]. destruct (_ || _); [reflexivity|].
  destruct (pg_dense g); [apply push_dense_decodes|reflexivity].
Qed.
Lemma p_push_groups_decodes chk gran lato lono gs :
  (do ls <- omapM (p_decode_group chk gran lato lono) gs; Ret (concat ls)) = result (p_push_groups chk gran lato lono gs).
Proof.
  induction gs as [|g gs IH]; [reflexivity|]. cbn [omapM p_push_groups]. rewrite p_push_group_decodes. unfold result at 1.
  destruct (p_push_group chk gran lato lono g) as [l []]; [|reflexivity]. cbn [fst snd obind].
  destruct (p_push_groups chk gran lato lono gs) as [l' ok]. destruct (omapM (p_decode_group chk gran lato lono) gs) as [ls|]; unfold result in *; cbn [obind fst snd] in *.
  - destruct ok; [|discriminate]. injection IH as <-. reflexivity.
  - destruct ok; [discriminate|reflexivity].
Qed.
Lemma p_push_blob_decodes rt chk inflate b : p_blob rt chk inflate b = result (p_push_blob rt chk inflate b).
Proof.
  unfold p_blob, p_push_blob. destruct (s_blob_data inflate b) as [data|]; [|reflexivity]. cbn [obind].
  destruct (parse_block rt data) as [blk|]; [|reflexivity]. apply p_push_groups_decodes.
Qed.

(** The beginnings of a list of groups. *)
Definition groups_begin (gs gs' : list pgroup) : Prop :=
  exists j, gs' = firstn j gs \/ exists g k, nth_error gs j = Some g /\ gs' = firstn j gs ++ [cut_group k g].
Lemma groups_begin_cons g gs gs' : groups_begin (g :: gs) gs' <->
  gs' = [] \/ (exists k, gs' = [cut_group k g]) \/ exists gs1, gs' = g :: gs1 /\ groups_begin gs gs1.
Proof.
  split.
  - intros ([|j] & [E|(x & k & N & E)]).
    + now left.
    + right; left. exists k. cbn in N, E. now injection N as ->.
    + right; right. exists (firstn j gs). split; [exact E|]. exists j. now left.
    + right; right. exists (firstn j gs ++ [cut_group k x]). split; [exact E|]. exists j. right. now exists x, k.
  - intros [E|[(k & E)|(gs1 & E & (j & [E1|(x & k & N & E1)]))]].
    + exists O. now left.
    + exists O. right. now exists g, k.
    + exists (S j). left. cbn. congruence.
    + exists (S j). right. exists x, k. split; [exact N|]. cbn. congruence.
Qed.

Lemma p_groups_longest chk gran lato lono : forall gs,
  let dec gs := do ls <- omapM (p_decode_group chk gran lato lono) gs; Ret (concat ls) in
  let l := fst (p_push_groups chk gran lato lono gs) in
  (exists gs', groups_begin gs gs' /\ dec gs' = Ret l) /\
  forall gs' l', groups_begin gs gs' -> dec gs' = Ret l' -> exists r, l = l' ++ r.
Proof.
  cbv zeta. induction gs as [|g gs (IH1 & IH2)].
  - split; [exists []; split; [exists O; now left|reflexivity]|]. intros gs' l' ([|j] & [->|(x & k & N & _)]) E; try discriminate; injection E as <-; now eexists.
  - pose proof (p_push_group_decodes chk gran lato lono g) as Dg. destruct (p_group_longest chk gran lato lono g) as (G1 & G2).
    cbn [p_push_groups]. destruct (p_push_group chk gran lato lono g) as [lg ok] eqn:Eg. unfold result in Dg. cbn [fst snd] in *. destruct ok.
    + destruct (p_push_groups chk gran lato lono gs) as [l ok] eqn:El. cbn [fst] in *. split.
      * destruct IH1 as (gs' & B & E). exists (g :: gs'). split; [apply groups_begin_cons; right; right; now exists gs'|].
        cbn [omapM]. rewrite Dg. cbn [obind]. destruct (omapM _ gs') as [ls|]; [|discriminate]. cbn [obind concat] in *. congruence.
      * intros gs' l' B E. apply groups_begin_cons in B as [->|[(k & ->)|(gs1 & -> & B)]].
        -- injection E as <-. now eexists.
        -- cbn [omapM] in E. destruct (p_decode_group chk gran lato lono (cut_group k g)) as [lk|] eqn:Ek; [|discriminate].
           cbn [obind concat] in E. injection E as <-. rewrite app_nil_r. apply G2 in Ek as (r & ->). exists (r ++ l). now rewrite app_assoc.
        -- cbn [omapM] in E. rewrite Dg in E. cbn [obind] in E. destruct (omapM _ gs1) as [ls|] eqn:E1; [|discriminate].
           cbn [obind concat] in E. injection E as <-. destruct (IH2 gs1 (concat ls) B) as (r & ->); [now rewrite E1|]. exists r. now rewrite app_assoc.
    + split.
      * destruct G1 as [->|(k & G1)].
        -- exists []. split; [apply groups_begin_cons; now left|reflexivity].
        -- exists [cut_group k g]. split; [apply groups_begin_cons; right; left; now exists k|]. cbn [omapM]. rewrite G1. cbn. now rewrite app_nil_r.
      * intros gs' l' B E. apply groups_begin_cons in B as [->|[(k & ->)|(gs1 & -> & B)]].
        -- injection E as <-. now eexists.
        -- cbn [omapM] in E. destruct (p_decode_group chk gran lato lono (cut_group k g)) as [lk|] eqn:Ek; [|discriminate].
           cbn [obind concat] in E. injection E as <-. rewrite app_nil_r. now apply G2 in Ek.
        -- cbn [omapM] in E. rewrite Dg in E. discriminate.
Qed.

Lemma p_blob_saved rt chk inflate b : p_blob rt chk inflate b = Panic ->
  saved rt (s_blob_data inflate b) (p_decode_block chk) beginning (fst (p_push_blob rt chk inflate b)).
Proof.
  unfold saved, p_push_blob. intros _. destruct (s_blob_data inflate b) as [data|]; [|reflexivity].
  destruct (parse_block rt data) as [blk|]; [|reflexivity].
  destruct (p_groups_longest chk (granularity blk) (lat_offset blk) (lon_offset blk) (pb_groups blk)) as (L1 & L2).
  assert (D : forall gs, p_decode_block chk (with_groups blk gs) =
    do ls <- omapM (p_decode_group chk (granularity blk) (lat_offset blk) (lon_offset blk)) gs; Ret (concat ls)) by reflexivity.
  split.
  - right. destruct L1 as (gs' & (j & B) & E). exists (with_groups blk gs'). split; [|now rewrite D].
    exists j. destruct B as [->|(g & k & N & ->)]; [now left|right; now exists g, k].
  - intros b' l' (j & [->|(g & k & N & ->)]) E; rewrite D in E; eapply L2; try exact E; exists j; [now left|right; now exists g, k].
Qed.

(** The buffer of the arc reader, taken from its end. *)
Lemma a_next_rev rt chk inflate src buf :
  a_next_p rt chk inflate (src, rev buf) =
  let '(x, (src', buf')) := next_p rt (fun b => match a_blob rt chk inflate b with Panic => ([], false) | Ret l => (l, true) end) (src, buf) in
  (x, (src', rev buf')).
Proof.
  unfold a_next_p, next_p, pop. destruct buf as [|o buf].
  - cbn [rev]. generalize (S (length src)) as fuel. intros fuel. revert src. induction fuel as [|fuel IH]; intros src; [reflexivity|].
    cbn [refill_p]. destruct (next_blob_p rt src) as [[b| |] r]; try reflexivity. unfold a_push_blob at 1.
    destruct (a_blob rt chk inflate b) as [[|o l]|]; [apply IH| |reflexivity].
    destruct (rev (o :: l)) as [|o' l'] eqn:E; [apply (f_equal (@rev _)) in E; rewrite rev_involutive in E; discriminate|].
    rewrite <- E, rev_involutive. reflexivity.
  - destruct (rev (o :: buf)) as [|o' l'] eqn:E; [apply (f_equal (@rev _)) in E; rewrite rev_involutive in E; discriminate|].
    rewrite <- E, rev_involutive. reflexivity.
Qed.
Lemma a_answers rt chk inflate src buf rs s :
  Answers (next_p rt (fun b => match a_blob rt chk inflate b with Panic => ([], false) | Ret l => (l, true) end)) (src, buf) rs s ->
  Answers (a_next_p rt chk inflate) (src, rev buf) rs (fst s, rev (snd s)).
Proof.
  intros H. remember (src, buf) as s0 eqn:E0. revert src buf E0. induction H as [s0 s' H|s0 x s1 l s' H N R IH]; intros src buf ->.
  - apply Answers_end. rewrite a_next_rev, H. now destruct s'.
  - destruct s1 as [src1 buf1]. eapply Answers_more; [rewrite a_next_rev, H; reflexivity|exact N|]. now apply IH.
Qed.

(** ** The answers of the readers *)

Lemma prefix_both {A} (l l' r r' : list A) : l = l' ++ r -> l' = l ++ r' -> l = l'.
Proof.
  intros E E'. pose proof (f_equal (@length _) E) as L. pose proof (f_equal (@length _) E') as L'. rewrite app_length in L, L'.
  destruct r; [now rewrite app_nil_r in E|cbn in L; lia].
Qed.
Lemma longest_unique {A} (dec : pblock -> outcome (list A)) begins l l' : longest dec begins l -> longest dec begins l' -> l = l'.
Proof.
  intros (H1 & H2) (H1' & H2').
  assert (N : forall x r : list A, [] = x ++ r -> x = []) by (intros [|? ?] ? ?; [reflexivity|discriminate]).
  destruct H1 as [->|(b & B & D)], H1' as [->|(b' & B' & D')]; [reflexivity| | |].
  - destruct (H2 _ _ B' D') as (r & E). symmetry. eapply N; exact E.
  - destruct (H2' _ _ B D) as (r & E). eapply N; exact E.
  - destruct (H2 _ _ B' D') as (r & E), (H2' _ _ B D) as (r' & E'). eapply prefix_both; eassumption.
Qed.
Lemma saved_unique {A} rt data (dec : pblock -> outcome (list A)) begins l l' : saved rt data dec begins l -> saved rt data dec begins l' -> l = l'.
Proof. unfold saved. destruct data as [d|]; [destruct (parse_block rt d)|]; [apply longest_unique|congruence|congruence]. Qed.

Section Frames.
Context {A : Type} (rt : pbrt) (dec : blob -> outcome (list A)) (keep : blob -> list A -> Prop) (push : blob -> list A * bool).
Context (Hd : forall b, dec b = result (push b)) (Hk : forall b, dec b = Panic -> keep b (fst (push b)))
  (Hu : forall b l l', keep b l -> keep b l' -> l = l').
Lemma frame_answers_unique f : exists! l, frame_answers rt dec keep f l.
Proof.
  unfold frame_answers. destruct (is_data f); [|exists []; now split].
  destruct (parse_blob rt (fr_data f)) as [b|]; [|exists [Panics]; split; [reflexivity|congruence]].
  destruct (dec b) as [os|] eqn:E; [exists (map Gives os); split; [reflexivity|congruence]|].
  exists (Panics :: map Gives (fst (push b))). split; [now exists (fst (push b)); auto|].
  intros l (os & -> & K). f_equal. f_equal. eapply Hu; [now apply Hk|exact K].
Qed.
Lemma frame_answers_push f l : frame_answers rt dec keep f l ->
  if is_data f then match parse_blob rt (fr_data f) with
                    | None => l = [Panics]
                    | Some b => l = (if snd (push b) then [] else [Panics]) ++ map Gives (fst (push b))
                    end
  else l = [].
Proof.
  unfold frame_answers. destruct (is_data f); [|easy]. destruct (parse_blob rt (fr_data f)) as [b|]; [|easy].
  pose proof (Hd b) as D. pose proof (Hk b) as K. unfold result in D. destruct (dec b) as [os|].
  - destruct (push b) as [os' []]; cbn [fst snd] in *; [|discriminate]. injection D as <-. easy.
  - intros (os & -> & K'). specialize (K eq_refl). rewrite (Hu _ _ _ K' K). destruct (push b) as [os' []]; [discriminate|reflexivity].
Qed.
End Frames.

(** Whatever a frame holds, the answers to it are determined. *)
Theorem C113_determined : forall rt chk inflate flt f,
  (exists! l, s_frame rt chk inflate flt f l) /\ (exists! l, p_frame rt chk inflate f l) /\ (exists! l, a_frame rt chk inflate f l).
Proof.
  intros rt chk inflate flt f. split; [|split].
  - apply (frame_answers_unique rt _ _ (s_push_blob rt chk inflate flt)); [apply s_blob_saved|]. intros b l l'. apply saved_unique.
  - apply (frame_answers_unique rt _ _ (p_push_blob rt chk inflate)); [apply p_blob_saved|]. intros b l l'. apply saved_unique.
  - apply (frame_answers_unique rt _ _ (fun b => match a_blob rt chk inflate b with Panic => ([], false) | Ret l => (l, true) end)).
    + intros b E. now rewrite E.
    + congruence.
Qed.
Print Assumptions C113_determined.

(** A file of any frames followed by anything: the answers to the frames in order, then
    those to what follows, as if it stood at the beginning of a file. *)
Theorem C113_string : forall rt chk inflate flt fs ls tail rs s, Forall frame_ok fs ->
  Forall2 (s_frame rt chk inflate flt) fs ls ->
  Answers (s_next_p rt chk inflate flt) (tail, []) rs s ->
  Answers (s_next_p rt chk inflate flt) (file_bytes fs ++ tail, []) (concat ls ++ rs) s.
Proof.
  intros rt chk inflate flt fs ls tail rs s Hf H HR. eapply answers_frames; [exact Hf| |exact H|exact HR].
  intros f l. apply frame_answers_push; [apply s_push_blob_decodes|apply s_blob_saved|]. intros b l1 l2. apply saved_unique.
Qed.
Print Assumptions C113_string.

Theorem C113_positions : forall rt chk inflate fs ls tail rs s, Forall frame_ok fs ->
  Forall2 (p_frame rt chk inflate) fs ls ->
  Answers (p_next_p rt chk inflate) (tail, []) rs s ->
  Answers (p_next_p rt chk inflate) (file_bytes fs ++ tail, []) (concat ls ++ rs) s.
Proof.
  intros rt chk inflate fs ls tail rs s Hf H HR. eapply answers_frames; [exact Hf| |exact H|exact HR].
  intros f l. apply frame_answers_push; [apply p_push_blob_decodes|apply p_blob_saved|]. intros b l1 l2. apply saved_unique.
Qed.
Print Assumptions C113_positions.

Lemma answers_det {St A} (next : St -> answer A * St) s rs s' : Answers next s rs s' -> forall rs2 s2, Answers next s rs2 s2 -> rs2 = rs /\ s2 = s'.
Proof.
  induction 1 as [s s' H|s x s1 l s' H N R IH]; intros rs2 s2 H2; inversion H2 as [t t' E|t y t1 l2 t' E N2 R2]; subst.
  - rewrite H in E. injection E as <-. now split.
  - congruence.
  - congruence.
  - rewrite H in E. injection E as <- <-. apply IH in R2 as (-> & ->). now split.
Qed.
Lemma a_answers_back rt chk inflate src rs s : Answers (a_next_p rt chk inflate) (src, []) rs s ->
  Answers (next_p rt (fun b => match a_blob rt chk inflate b with Panic => ([], false) | Ret l => (l, true) end)) (src, []) rs s.
Proof.
  intros H. destruct (answers_total rt (fun b => match a_blob rt chk inflate b with Panic => ([], false) | Ret l => (l, true) end) (S (length src)) src [])
    as (rs' & H'); [lia|]. pose proof (a_answers _ _ _ _ _ _ _ H') as H2. cbn in H2. destruct (answers_det _ _ _ _ H2 _ _ H) as (-> & ->). exact H'.
Qed.

Theorem C113_arc : forall rt chk inflate fs ls tail rs s, Forall frame_ok fs ->
  Forall2 (a_frame rt chk inflate) fs ls ->
  Answers (a_next_p rt chk inflate) (tail, []) rs s ->
  Answers (a_next_p rt chk inflate) (file_bytes fs ++ tail, []) (concat ls ++ rs) s.
Proof.
  intros rt chk inflate fs ls tail rs s Hf H HR. pose proof HR as HR'. apply a_answers_back in HR'.
  assert (s = ([], [])) as ->.
  { destruct (answers_total rt (fun b => match a_blob rt chk inflate b with Panic => ([], false) | Ret l => (l, true) end) (S (length tail)) tail [])
      as (rs' & H'); [lia|]. now destruct (answers_det _ _ _ _ H' _ _ HR') as (_ & ->). }
  apply (a_answers _ _ _ _ [] _ ([], [])). eapply answers_frames; [exact Hf| |exact H|exact HR'].
  intros f l. apply frame_answers_push.
  - intros b. now destruct (a_blob rt chk inflate b).
  - intros b E. now rewrite E.
  - congruence.
Qed.
Print Assumptions C113_arc.

(** Calling again after every panic comes to an end, and there is one sequence of answers,
    whatever the source and whatever is buffered; nothing is left then. *)
Theorem C113_ends : forall rt chk inflate flt src,
  (forall buf, exists! rs, exists s, Answers (s_next_p rt chk inflate flt) (src, buf) rs s /\ s = ([], [])) /\
  (forall buf, exists! rs, exists s, Answers (p_next_p rt chk inflate) (src, buf) rs s /\ s = ([], [])) /\
  (forall buf, exists! rs, exists s, Answers (a_next_p rt chk inflate) (src, buf) rs s /\ s = ([], [])).
Proof.
  intros rt chk inflate flt src.
  assert (T : forall St A (next : St -> answer A * St) s0 e, (exists rs, Answers next s0 rs e) -> exists! rs, exists s, Answers next s0 rs s /\ s = e).
  { intros St A next s0 e (rs & H). exists rs. split; [now exists e|]. intros rs' (s' & H' & _). now destruct (answers_det _ _ _ _ H' _ _ H) as (<- & _). }
  split; [|split]; intros buf; apply T.
  - apply (answers_total rt _ (S (length src))); lia.
  - apply (answers_total rt _ (S (length src))); lia.
  - destruct (answers_total rt (fun b => match a_blob rt chk inflate b with Panic => ([], false) | Ret l => (l, true) end) (S (length src)) src (rev buf))
      as (rs & H); [lia|]. exists rs. apply a_answers in H. rewrite rev_involutive in H. exact H.
Qed.
Print Assumptions C113_ends.

(** ** What follows the frames *)

Lemma nbp_short rt src : (length src < 4)%nat -> next_blob_p rt src = (Ends, []).
Proof. intros H. destruct src as [|a [|b [|c [|d src]]]]; try reflexivity. cbn in H. lia. Qed.

Lemma take_short n (src : bytes) : Z.of_nat (length src) < n -> take n src = None.
Proof.
  intros H. pose proof (read_exact_short n src H) as E. unfold read_exact in E. destruct (n <? 0) eqn:En; [lia|].
  destruct (take n src) as [[]|]; [discriminate|reflexivity].
Qed.
Lemma nbp_cut rt f q : frame_ok f -> (4 <= length q < length (frame_bytes f))%nat -> (exists r, frame_bytes f = q ++ r) ->
  next_blob_p rt q = (Panics, []).
Proof.
  intros Hf Hq (r & Hr). pose proof (frame_header_parse rt f Hf) as Hp. destruct Hf as (H1 & H2 & H3).
  unfold frame_bytes in Hr, Hq. apply app_split in Hr as (q' & -> & Hr); [|exact (proj1 Hq)].
  rewrite !app_length in Hq. set (n := length (be32 _)) in Hq.
  unfold next_blob_p. cbn [next_blob_p_fuel]. rewrite read_u32_be32 by lia. unfold read_exact_p at 1.
  replace (Z.of_nat (length (frame_header f)) <? 0) with false by lia.
  destruct (Nat.ltb (length q') (length (frame_header f))) eqn:E.
  - apply Nat.ltb_lt in E. now rewrite take_short by lia.
  - apply Nat.ltb_ge in E. apply app_split in Hr as (q2 & -> & Hr); [|exact E].
    rewrite take_app by easy. rewrite Hp. cbn [unwrap_or bh_datasize]. unfold read_exact_p.
    replace (Z.of_nat (length (fr_data f)) <? 0) with false by lia.
    rewrite take_short; [reflexivity|]. rewrite Hr in *. rewrite !app_length in *. lia.
Qed.
Lemma nbp_header rt h rest : Z.of_nat (length h) < 2^32 ->
  match parse_header rt h with None => True | Some bh => unwrap_or (bh_datasize bh) 0 < 0 end ->
  next_blob_p rt (be32 (Z.of_nat (length h)) ++ h ++ rest) = (Panics, rest).
Proof.
  intros H Hh. unfold next_blob_p. cbn [next_blob_p_fuel]. rewrite read_u32_be32 by lia. unfold read_exact_p at 1.
  replace (Z.of_nat (length h) <? 0) with false by lia. rewrite take_app by easy.
  destruct (parse_header rt h) as [bh|]; [|reflexivity]. unfold read_exact_p. now replace (unwrap_or (bh_datasize bh) 0 <? 0) with true by lia.
Qed.

Lemma answers_turn {A} rt (decode : blob -> list A * bool) src : match next_blob_p rt src with
  | (Ends, _) => Answers (next_p rt decode) (src, []) [] ([], [])
  | (Panics, r) => forall rs s, Answers (next_p rt decode) (r, []) rs s -> Answers (next_p rt decode) (src, []) (Panics :: rs) s
  | (Gives _, _) => True
  end.
Proof.
  pose proof (next_p_turn rt decode src) as T. destruct (nbp_spec rt (S (length src)) src) as (E & _ & _); [lia|].
  fold (next_blob_p rt src) in E. destruct (next_blob_p rt src) as [[b| |] r]; [exact I| |].
  - cbn [fst snd] in E. rewrite (E eq_refl) in T. now apply Answers_end.
  - intros rs s H. eapply Answers_more; [exact T|discriminate|exact H].
Qed.
Lemma a_answers_turn rt chk inflate src : match next_blob_p rt src with
  | (Ends, _) => Answers (a_next_p rt chk inflate) (src, []) [] ([], [])
  | (Panics, r) => forall rs s, Answers (a_next_p rt chk inflate) (r, []) rs s -> Answers (a_next_p rt chk inflate) (src, []) (Panics :: rs) s
  | (Gives _, _) => True
  end.
Proof.
  pose proof (answers_turn rt (fun b => match a_blob rt chk inflate b with Panic => ([], false) | Ret l => (l, true) end) src) as T.
  destruct (next_blob_p rt src) as [[b| |] r]; [exact I| |].
  - apply (a_answers _ _ _ _ [] _ ([], [])). exact T.
  - intros rs s H. pose proof H as H'. apply a_answers_back in H'. pose proof (T _ _ H') as H2. apply a_answers in H2. apply a_answers in H'. cbn in H'.
    destruct (answers_det _ _ _ _ H' _ _ H) as (_ & ->). exact H2.
Qed.

(** The three readers at once. *)
Definition answers_of (rt : pbrt) (chk : build) (inflate : bytes -> option bytes) (flt : obj_filter) (src : bytes)
    (rs : list (answer sobj)) (rp : list (answer (Z * latlon))) (ra : list (answer aobj)) : Prop :=
  Answers (s_next_p rt chk inflate flt) (src, []) rs ([], []) /\
  Answers (p_next_p rt chk inflate) (src, []) rp ([], []) /\
  Answers (a_next_p rt chk inflate) (src, []) ra ([], []).

(** Fewer than four bytes: the end.  A frame cut later: a panic, then the end.  A header that
    is none (or names a negative size): a panic, and then what follows the header is read as
    if it were a file: the reader has lost its place. *)
Theorem C113_tail : forall rt chk inflate flt,
  (forall src, (length src < 4)%nat -> answers_of rt chk inflate flt src [] [] []) /\
  (forall f q r, frame_ok f -> frame_bytes f = q ++ r -> r <> [] -> (4 <= length q)%nat ->
     answers_of rt chk inflate flt q [Panics] [Panics] [Panics]) /\
  (forall h rest rs rp ra, Z.of_nat (length h) < 2^32 ->
     match parse_header rt h with None => True | Some bh => unwrap_or (bh_datasize bh) 0 < 0 end ->
     answers_of rt chk inflate flt rest rs rp ra ->
     answers_of rt chk inflate flt (be32 (Z.of_nat (length h)) ++ h ++ rest) (Panics :: rs) (Panics :: rp) (Panics :: ra)).
Proof.
  intros rt chk inflate flt.
  assert (E : forall src, (length src < 4)%nat -> answers_of rt chk inflate flt src [] [] []).
  { intros src H. apply (nbp_short rt) in H. unfold answers_of, s_next_p, p_next_p.
    pose proof (answers_turn rt (s_push_blob rt chk inflate flt) src) as T1. pose proof (answers_turn rt (p_push_blob rt chk inflate) src) as T2.
    pose proof (a_answers_turn rt chk inflate src) as T3. rewrite H in *. now repeat split. }
  assert (P : forall src r rs rp ra, next_blob_p rt src = (Panics, r) -> answers_of rt chk inflate flt r rs rp ra ->
    answers_of rt chk inflate flt src (Panics :: rs) (Panics :: rp) (Panics :: ra)).
  { intros src r rs rp ra H (R1 & R2 & R3). unfold answers_of, s_next_p, p_next_p.
    pose proof (answers_turn rt (s_push_blob rt chk inflate flt) src) as T1. pose proof (answers_turn rt (p_push_blob rt chk inflate) src) as T2.
    pose proof (a_answers_turn rt chk inflate src) as T3. rewrite H in *. split; [|split]; auto. }
  split; [exact E|split].
  - intros f q r Hf Hr Hn Hq. eapply P; [|apply (E []); cbn; lia]. eapply nbp_cut; [exact Hf| |now exists r].
    split; [exact Hq|]. rewrite Hr, app_length. destruct r; [now elim Hn|]. cbn [length]. lia.
  - intros h rest rs rp ra Hl Hh HR. eapply P; [|exact HR]. now apply nbp_header.
Qed.
Print Assumptions C113_tail.

(** ** The same readers *)

Lemma refill_p_same {A} rt (decode : blob -> outcome (list A)) (push : blob -> list A * bool) :
  (forall b, decode b = result (push b)) -> forall fuel src,
  refill rt decode fuel src =
  match refill_p rt push fuel src with
  | (Gives _, (r, l)) => Ret (Some l, r) | (Ends, (r, _)) => Ret (None, r) | (Panics, _) => Panic
  end /\ match refill_p rt push fuel src with (Gives _, (_, [])) => False | (Ends, (_, _ :: _)) => False | _ => True end.
Proof.
  intros Hd. induction fuel as [|fuel IH]; intros src; [now split|]. cbn [refill refill_p].
  destruct (nbp_spec rt (S (length src)) src) as (_ & _ & E); [lia|]. fold (next_blob rt src) (next_blob_p rt src) in E. rewrite E.
  destruct (next_blob_p rt src) as [[b| |] r]; try now split. cbn [obind]. rewrite Hd. unfold result.
  destruct (push b) as [[|a l] []]; cbn [fst snd obind]; try now split. apply IH.
Qed.

(** The readers here are those of the other properties: they answer alike, as long as no
    panic has happened. *)
Theorem C113_same : forall rt chk inflate,
  (forall flt src buf, s_next rt chk inflate (SReader src buf flt) =
     match s_next_p rt chk inflate flt (src, buf) with
     | (Gives o, (src', buf')) => Ret (Some o, SReader src' buf' flt)
     | (Ends, (src', buf')) => Ret (None, SReader src' buf' flt)
     | (Panics, _) => Panic
     end) /\
  (forall s, p_next rt chk inflate s =
     match p_next_p rt chk inflate s with (Gives o, s') => Ret (Some o, s') | (Ends, s') => Ret (None, s') | (Panics, _) => Panic end) /\
  (forall s, a_next rt chk inflate s =
     match a_next_p rt chk inflate s with (Gives o, s') => Ret (Some o, s') | (Ends, s') => Ret (None, s') | (Panics, _) => Panic end).
Proof.
  intros rt chk inflate. split; [|split].
  - intros flt src buf. unfold s_next, s_next_p, next_p, next_buffered. cbn [sr_src sr_buf sr_filter]. destruct buf as [|o buf]; [|reflexivity].
    destruct (refill_p_same rt (s_blob rt chk inflate flt) (s_push_blob rt chk inflate flt) (s_push_blob_decodes rt chk inflate flt) (S (length src)) src) as (E & N).
    rewrite E. destruct (refill_p _ _ _ _) as [[u| |] [r [|o l]]]; try reflexivity; now elim N.
  - intros [src buf]. unfold p_next, p_next_p, next_p, next_buffered. cbn [fst snd]. destruct buf as [|o buf]; [|reflexivity].
    destruct (refill_p_same rt (p_blob rt chk inflate) (p_push_blob rt chk inflate) (p_push_blob_decodes rt chk inflate) (S (length src)) src) as (E & N).
    rewrite E. destruct (refill_p _ _ _ _) as [[u| |] [r [|o l]]]; try reflexivity; now elim N.
  - intros [src buf]. unfold a_next, a_next_p. destruct buf as [|o buf].
    + destruct (refill_p_same rt (fun b => do l <- a_blob rt chk inflate b; Ret (rev l)) (a_push_blob rt chk inflate)) with (fuel := S (length src)) (src := src) as (E & N).
      { intros b. unfold a_push_blob. now destruct (a_blob rt chk inflate b). }
      rewrite E. destruct (refill_p _ _ _ _) as [[u| |] [r l]]; cbn [obind unwrap_or]; [now destruct (pop l) as [[]]| |reflexivity].
      destruct l; [reflexivity|now elim N].
    + cbn [obind]. now destruct (pop (o :: buf)) as [[]].
Qed.
Print Assumptions C113_same.

(** ** XML *)

(** What a program that goes on after panics gets, when stopping at the first one gives the
    objects [os] and then [r]. *)
Definition goes_on {St} (os : list sobj) (r : outcome (list St)) (rs : list (answer sobj)) (s : list St) : Prop :=
  match r with
  | Ret s' => rs = map Gives os /\ s = s'
  | Panic => rs = map Gives os ++ [Panics] /\ s = []
  end.
(** The XML readers do not go on after a panic: it is the last thing that happens, nothing of
    the file is left, and the objects before it are those of a program that does not catch it. *)
Theorem C113_xml : forall l rs s,
  (Answers xml_next_p l rs s <-> exists os r, Runs xml_next l os r /\ goes_on os r rs s) /\
  (Answers osc_next_p l rs s <-> exists os r, Runs osc_next l os r /\ goes_on os r rs s).
Proof.
  assert (G : forall (next : list XmlToken.item -> outcome (option sobj * list XmlToken.item)) (next' : list XmlToken.item -> answer sobj * list XmlToken.item),
    (forall l, next' l = match next l with Ret (Some o, r) => (Gives o, r) | Ret (None, r) => (Ends, r) | Panic => (Panics, []) end) ->
    next [] = Ret (None, []) ->
    forall l rs s, Answers next' l rs s <-> exists os r, Runs next l os r /\ goes_on os r rs s).
  { intros next next' P E l rs s. assert (E' : next' [] = (Ends, [])) by now rewrite P, E. split.
    - intros H. induction H as [l s H|l x l1 rs s H N R IH].
      + rewrite P in H. destruct (next l) as [[[o|] r]|] eqn:En; try discriminate. injection H as ->. exists [], (Ret s). split; [now constructor|now split].
      + rewrite P in H. destruct (next l) as [[[o|] r]|] eqn:En; injection H as <- <-; [| now elim N |].
        * destruct IH as (os & t & Rn & Gn). exists (o :: os), t. split; [econstructor; eassumption|].
          destruct t; cbn in *; destruct Gn as [-> ->]; now split.
        * exists [], Panic. split; [now constructor|]. inversion R as [t t' F|t y t1 l2 t' F N2 R2]; subst; rewrite E' in F; injection F as <-; [now split|now elim N2].
    - intros (os & r & R & H). revert rs H. induction R as [l s' En|l En|l o l1 os r En R IH]; intros rs H; cbn in H.
      + destruct H as [-> ->]. constructor. now rewrite P, En.
      + destruct H as [-> ->]. eapply Answers_more; [rewrite P, En; reflexivity|discriminate|]. now constructor.
      + destruct r as [s1|]; destruct H as [-> ->]; (eapply Answers_more; [rewrite P, En; reflexivity|discriminate|]); apply IH; now split. }
  intros l rs s. split; apply G; reflexivity.
Qed.
Print Assumptions C113_xml.

(** ** Examples *)

(** Three nodes, of which the third has no latitude, between two good blocks and before a
    frame that is cut. *)
Definition ex_short : pblock :=
  PBlock (Some [[]; [117]]) [PGroup [] (Some (dense_of [1; 1; 1] [5; 5] [6; 6; 6] [10; 1; 1])) [] [] []] None None None None.
Definition zframe (b : pblock) : frame :=
  Frame (lit "OSMData") None (ser_blob (Blob None (Some 1) (Some (ser (pb_fields b))) None None)).
Definition ex_damaged : list frame := [zframe ex_dense; zframe ex_short; Frame (lit "OSMHeader") None [1; 2]; zframe ex_dense].
Definition kind {A} (x : answer A) : Z := match x with Gives _ => 1 | Ends => 0 | Panics => -1 end.
Example C113_example : Forall frame_ok ex_damaged /\
  exists rs rp ra, answers_of ex_rt (plain true) (fun z => Some z) (OF true true true)
    (file_bytes ex_damaged ++ firstn 20 (frame_bytes (zframe ex_dense))) rs rp ra /\
  map kind rs = [1; 1; -1; 1; 1; 1; 1; -1] /\ map kind rp = [1; 1; -1; 1; 1; 1; 1; -1] /\ map kind ra = [1; 1; -1; 1; 1; -1].
Proof.
  split.
  - assert (V : forall f, forallb scalarb (fr_type f) && (Z.of_nat (length (fr_data f)) <? 2^31) && (Z.of_nat (length (frame_header f)) <? 2^32) = true -> frame_ok f).
    { intros f H. apply andb_prop in H as (H & H3). apply andb_prop in H as (H1 & H2). split; [|lia].
      apply Forall_forall. intros x Hx. apply scalarb_iff. rewrite forallb_forall in H1. now apply H1. }
    unfold ex_damaged. repeat apply Forall_cons; try apply Forall_nil; apply V; vm_compute; reflexivity.
  - eexists _, _, _. split; [split; [|split]|].
    1-3: repeat (eapply Answers_more; [vm_compute; reflexivity|discriminate|]); apply Answers_end; vm_compute; reflexivity.
    repeat split.
Qed.
Example C113_xml_example : exists o,
  Answers xml_next_p [IEv (EStart (lit "way") [(lit "id", lit "1")]); IEv (EEnd (lit "way")); IErr; IEv (EStart (lit "node") [])]
    [Gives o; Panics] [].
Proof.
  eexists. eapply Answers_more; [vm_compute; reflexivity|discriminate|]. eapply Answers_more; [vm_compute; reflexivity|discriminate|].
  apply Answers_end. reflexivity.
Qed.
