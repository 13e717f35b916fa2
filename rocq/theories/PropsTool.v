(** C64, C65: osmio-changeset-tags-to-sqlite. *)
From Coq Require Import String ZArith List Bool Lia Permutation Sorted.
From Coq Require Import ZifyBool ZifyNat.
From Verif Require Import Base SpecNum Ints Obj Utf8 SpecJson Json JsonFacts Timestamp Changesets SpecChangeset ChangesetFacts ChangesetTags PropsChangeset TagsTool.
Import ListNotations.
Open Scope Z_scope.

(** ** Specification *)

(** A row that holds a changeset of the tag reader: its id (as a signed number) and
    a JSON array with its tags as two-element arrays, in order. *)
Definition holds (c : Z * tags) (r : row) : Prop :=
  fst r = (if fst c <? 2^63 then fst c else fst c - 2^64)
  /\ exists text, utf8_decode (snd r) = Some text
     /\ parse_json text = Some (JArr (map (fun kv => JArr [JStr (fst kv); JStr (snd kv)]) (snd c))).

(** The normalisation of attribute values yields text. *)
Definition text_norm (norm : str -> option str) : Prop := forall s v, norm s = Some v -> valid_str v.

(** How many of the tags have that key. *)
Definition uses (k : str) (t : list (str * str)) : Z := Z.of_nat (length (filter (fun kv => str_eqb (fst kv) k) t)).
Definition all_tags (l : list (Z * tags)) : list (str * str) := flat_map snd l.
(** How many of the changesets have a tag with that key. *)
Definition tagged_with (k : str) (l : list (Z * tags)) : Z :=
  Z.of_nat (length (filter (fun c => existsb (fun kv => str_eqb (fst kv) k) (snd c)) l)).

(** ** Proof *)

Definition row_of (c : Z * tags) : row := (as_i64 (fst c), utf8 (pairs_json (snd c))).

Lemma loop_facts norm fail : forall fuel n rows num pop s evs res,
  tool_loop norm fail fuel n rows num pop s = (evs, res) ->
  exists l, match res with
    | None => evs = map (fun c => EInsert (row_of c)) l ++ [ERollback]
    | Some (num', pop') =>
        evs = map (fun c => EInsert (row_of c)) l ++ [ECommit]
        /\ Replies (tr_step norm) s (map Item l)
        /\ (NoDup (map fst rows) -> NoDup (map fst (rows ++ map row_of l)))
        /\ num' = num + Z.of_nat (length l)
        /\ pop' = fold_left (fun m c => count_tags (snd c) m) l pop
    end.
Proof.
  induction fuel as [|fuel IH]; intros n rows num pop s evs res H; cbn [tool_loop] in H.
  - injection H as <- <-. now exists [].
  - destruct (tr_next norm s) as [[[cid t]| |] s'] eqn:E.
    + cbv zeta in H. destruct (fail n || _) eqn:Ef; [injection H as <- <-; now exists []|].
      destruct (tool_loop norm fail fuel (S n) _ _ _ s') as [evs' res'] eqn:E2. injection H as <- <-.
      destruct (IH _ _ _ _ _ _ _ E2) as (l & Hl). exists ((cid, t) :: l). destruct res' as [[num' pop']|].
      * destruct Hl as (H1 & H2 & H3 & H4 & H5). split; [cbn [map app]; now rewrite H1|].
        split; [cbn [map]; eapply Replies_item; [exact E|exact H2]|].
        split; [|split; [cbn [length]; lia|exact H5]].
        intros Hd. cbn [map]. change (row_of (cid, t) :: map row_of l) with ([row_of (cid, t)] ++ map row_of l).
        rewrite app_assoc. apply H3. rewrite map_app. cbn [map fst].
        eapply Permutation_NoDup; [apply Permutation_cons_append|].
        constructor; [|exact Hd]. intros Hi. apply orb_false_iff in Ef. destruct Ef as [_ Ef].
        assert (X : existsb (Z.eqb (as_i64 cid)) (map fst rows) = true).
        { apply existsb_exists. exists (as_i64 cid). split; [exact Hi|apply Z.eqb_refl]. }
        cbn [fst] in Ef. congruence.
      * cbn [map app]. now rewrite Hl.
    + injection H as <- <-. now exists [].
    + destruct (fail n); injection H as <- <-; exists []; [reflexivity|]. split; [reflexivity|].
      split; [eapply Replies_end; exact E|]. split; [now rewrite app_nil_r|]. cbn [length fold_left]. split; [lia|reflexivity].
Qed.

Lemma inserts_disk l d : on_disk (fold_left db_step (map (fun c => EInsert (row_of c)) l) d) = on_disk d
  /\ pending (fold_left db_step (map (fun c => EInsert (row_of c)) l) d) = pending d ++ map row_of l.
Proof.
  revert d. induction l as [|c l IH]; intros d; cbn [map fold_left]; [now rewrite app_nil_r|].
  destruct (IH (db_step d (EInsert (row_of c)))) as [A B0]. rewrite A, B0. cbn [db_step on_disk pending].
  now rewrite <- app_assoc.
Qed.

Lemma firstn_snoc {A} (l : list A) x k : firstn k (l ++ [x]) = l ++ [x] \/ exists j, firstn k (l ++ [x]) = firstn j l.
Proof.
  destruct (Nat.le_gt_cases (S (length l)) k).
  - left. apply firstn_all2. rewrite app_length. cbn. lia.
  - right. exists k. rewrite firstn_app. replace (k - length l)%nat with O by lia. cbn. now rewrite app_nil_r.
Qed.

(** The tags of the items are text. *)
Lemma read_tag_valid norm a k v : text_norm norm -> read_tag norm a = Some (k, v) -> valid_str k /\ valid_str v.
Proof.
  intros Hn. unfold read_tag.
  assert (G : forall a k0 v0 k1 v1, (forall x, k0 = Some x -> valid_str x) -> (forall x, v0 = Some x -> valid_str x) ->
    take_kv norm k0 v0 a = Some (k1, v1) -> (forall x, k1 = Some x -> valid_str x) /\ (forall x, v1 = Some x -> valid_str x)).
  { clear -Hn. induction a as [|[|key raw] a IH]; intros k0 v0 k1 v1 H1 H2 H; cbn [take_kv] in H; [injection H as <- <-; auto|discriminate|].
    destruct (local_is key "k").
    - destruct (norm raw) as [x|] eqn:En; [|discriminate]. cbn in H. eapply IH; [| |exact H]; [|exact H2]. intros ? [= <-]. eapply Hn, En.
    - destruct (local_is key "v"); [|exact (IH _ _ _ _ H1 H2 H)].
      destruct (norm raw) as [x|] eqn:En; [|discriminate]. cbn in H. eapply IH; [| |exact H]; [exact H1|]. intros ? [= <-]. eapply Hn, En. }
  destruct (take_kv norm None None a) as [[[k1|] [v1|]]|] eqn:E; try discriminate. intros [= <- <-].
  destruct (G a None None _ _ ltac:(discriminate) ltac:(discriminate) E). auto.
Qed.

Definition text_pair (p : str * str) : Prop := valid_str (fst p) /\ valid_str (snd p).

Lemma next_tag_valid norm : text_norm norm -> forall l cur t r s, Forall text_pair t ->
  next_tag norm cur t l = (r, s) ->
  Forall text_pair (tr_tags s) /\ forall c, r = Item c -> Forall text_pair (snd c).
Proof.
  intros Hn. induction l as [|[e|] l IH]; intros cur t r s Ht H; cbn [next_tag] in H.
  - injection H as <- <-. split; [exact Ht|discriminate].
  - assert (Q : forall a, (match read_tag norm a with Some kv => next_tag norm cur (t ++ [kv]) l | None => (Error, TR cur t l) end) = (r, s) ->
       Forall text_pair (tr_tags s) /\ forall c, r = Item c -> Forall text_pair (snd c)).
    { intros a. destruct (read_tag norm a) as [[k v]|] eqn:Er.
      - apply IH. apply Forall_app. split; [exact Ht|]. constructor; [|constructor]. exact (read_tag_valid norm a k v Hn Er).
      - intros [= <- <-]. split; [exact Ht|discriminate]. }
    destruct e as [n a|n a|n|].
    + destruct (local_is n "changeset").
      * destruct (take_id norm cur a) as [cur' [|]]; [now apply (IH cur' []) in H; [|constructor]|].
        injection H as <- <-. split; [exact Ht|discriminate].
      * destruct (local_is n "tag"); [now apply Q in H|now apply IH in H].
    + destruct (local_is n "tag"); [now apply Q in H|now apply IH in H].
    + destruct (local_is n "changeset"); [|now apply IH in H].
      destruct cur; injection H as <- <-; (split; [|intros c Hc]); try constructor; try exact Ht; try discriminate.
      injection Hc as <-. exact Ht.
    + now apply IH in H.
  - injection H as <- <-. split; [exact Ht|discriminate].
Qed.

Lemma replies_valid norm : text_norm norm -> forall s rs, Replies (tr_step norm) s rs -> Forall text_pair (tr_tags s) ->
  Forall (fun r => forall c, r = Item c -> Forall text_pair (snd c)) rs.
Proof.
  intros Hn s rs H. induction H as [s s' H|s a s' l H _ IH|s s' l H _ IH]; intros Ht; [constructor| |];
  unfold tr_step, tr_next in H; apply (next_tag_valid norm Hn) in H; try exact Ht; destruct H as [A B0]; constructor; auto; try discriminate.
Qed.

(** Ids are u64. *)
Lemma parse_u64_range s v : parse_u64 s = Some v -> in_u64 v.
Proof. unfold parse_u64. intros H. apply parse_int_spec in H; [|lia]. unfold in_u64. lia. Qed.

Lemma next_tag_id norm : forall l cur t r s, (forall i, cur = Some i -> in_u64 i) ->
  next_tag norm cur t l = (r, s) ->
  (forall i, tr_id s = Some i -> in_u64 i) /\ forall c, r = Item c -> in_u64 (fst c).
Proof.
  assert (TI : forall a cur cur' b, (forall i, cur = Some i -> in_u64 i) -> take_id norm cur a = (cur', b) -> forall i, cur' = Some i -> in_u64 i).
  { induction a as [|[|key raw] a IH]; intros cur cur' b Hc H; cbn [take_id] in H; try (injection H as <- <-; exact Hc).
    destruct (local_is key "id"); [|eapply IH; eassumption].
    destruct (opt_bind (norm raw) parse_u64) as [v|] eqn:E; [|injection H as <- <-; exact Hc].
    eapply IH; [|exact H]. intros i [= <-]. destruct (norm raw); [|discriminate]. eapply parse_u64_range, E. }
  induction l as [|[e|] l IH]; intros cur t r s Hc H; cbn [next_tag] in H.
  - injection H as <- <-. split; [exact Hc|discriminate].
  - destruct e as [n a|n a|n|].
    + destruct (local_is n "changeset").
      * destruct (take_id norm cur a) as [cur' [|]] eqn:E; pose proof (TI _ _ _ _ Hc E) as Hc'; [now apply IH in H|].
        injection H as <- <-. split; [exact Hc'|discriminate].
      * destruct (local_is n "tag"); [|now apply IH in H]. destruct (read_tag norm a); [now apply IH in H|].
        injection H as <- <-. split; [exact Hc|discriminate].
    + destruct (local_is n "tag"); [|now apply IH in H]. destruct (read_tag norm a); [now apply IH in H|].
      injection H as <- <-. split; [exact Hc|discriminate].
    + destruct (local_is n "changeset"); [|now apply IH in H].
      destruct cur as [i|]; injection H as <- <-; (split; [exact Hc|]); intros c Hq; [|discriminate]. injection Hq as <-. now apply Hc.
    + now apply IH in H.
  - injection H as <- <-. split; [exact Hc|discriminate].
Qed.
Lemma replies_id norm : forall s rs, Replies (tr_step norm) s rs -> (forall i, tr_id s = Some i -> in_u64 i) ->
  Forall (fun r => forall c, r = Item c -> in_u64 (fst c)) rs.
Proof.
  intros s rs H. induction H as [s s' H|s a s' l H _ IH|s s' l H _ IH]; intros Ht; [constructor| |];
  unfold tr_step, tr_next in H; apply next_tag_id in H; try exact Ht; destruct H as [A B0]; constructor; auto; try discriminate.
Qed.

Lemma valid_app a b : valid_str a -> valid_str b -> valid_str (a ++ b).
Proof. unfold valid_str. rewrite Forall_app. auto. Qed.
Lemma ascii_scalar c : 0 <= c < 128 -> scalar c.
Proof. unfold scalar. lia. Qed.
Lemma json_text_valid s : valid_str s -> valid_str (json_text s).
Proof.
  intros H. unfold json_text. constructor; [apply ascii_scalar; lia|]. apply valid_app; [|constructor; [apply ascii_scalar; lia|constructor]].
  induction H as [|c s Hc Hs IH]; [constructor|]. cbn [flat_map]. apply valid_app; [|exact IH]. clear IH Hs.
  unfold json_escape.
  do 7 match goal with |- valid_str (if ?b then _ else _) => destruct b eqn:?; [repeat (constructor; [apply ascii_scalar; lia|]); constructor|] end.
  destruct (c <? 32) eqn:E.
  - assert (0 <= c) by (unfold scalar in Hc; lia). unfold hex_digit.
    do 4 (apply Forall_cons; [apply ascii_scalar; lia|]). apply Forall_cons; [|apply Forall_cons; [|apply Forall_nil]].
    + destruct (c / 16 <? 10) eqn:?; apply ascii_scalar; Z.div_mod_to_equations; lia.
    + destruct (c mod 16 <? 10) eqn:?; apply ascii_scalar; Z.div_mod_to_equations; lia.
  - constructor; [exact Hc|constructor].
Qed.
Lemma pairs_json_valid t : Forall text_pair t -> valid_str (pairs_json t).
Proof.
  intros H. unfold pairs_json. apply valid_app; [constructor; [apply ascii_scalar; lia|constructor]|].
  apply valid_app; [|constructor; [apply ascii_scalar; lia|constructor]].
  induction H as [|[k v] t [H1 H2] HF IH]; [constructor|].
  assert (P : valid_str ([91] ++ json_text k ++ [44] ++ json_text v ++ [93])).
  { cbn [fst snd] in *. repeat (apply valid_app; [first [apply json_text_valid; assumption|constructor; [apply ascii_scalar; lia|constructor]]|]).
    constructor; [apply ascii_scalar; lia|constructor]. }
  cbn [map]. destruct t as [|p t]; [exact P|]. cbn [map] in *. rewrite join_cons2.
  apply valid_app; [exact P|]. apply valid_app; [constructor; [apply ascii_scalar; lia|constructor]|exact IH].
Qed.

Lemma holds_row c : in_u64 (fst c) -> Forall text_pair (snd c) -> holds c (row_of c).
Proof.
  intros Hi Ht. split.
  - cbn [row_of fst]. unfold as_i64, in_u64 in *. destruct (fst c <? 2^63) eqn:E.
    + rewrite Z.mod_small; lia.
    + replace (fst c + 2^63) with (fst c - 2^63 + 1 * 2^64) by lia. rewrite Z.mod_add by lia. rewrite Z.mod_small; lia.
  - exists (pairs_json (snd c)). cbn [row_of snd]. split; [apply utf8_decode_encode, pairs_json_valid, Ht|].
    apply pairs_json_parse. eapply Forall_impl; [|exact Ht]. intros [k v] [H1 H2]. split; cbn [fst snd] in *;
    (eapply Forall_impl; [|eassumption]); intros x; unfold scalar; lia.
Qed.

Lemma tr_det norm s r s' r' s'' : tr_step norm s r s' -> tr_step norm s r' s'' -> r = r' /\ s' = s''.
Proof. unfold tr_step. intros H1 H2. rewrite H1 in H2. injection H2 as <- <-. auto. Qed.

(** ** C64 *)

(** Whatever fails and wherever the program dies (after any number [k] of its
    database operations), the table is missing, empty or complete; it is complete
    exactly if the program gets to the end, and then it has one row for every
    changeset that the tag reader yields, in order. *)
Theorem C64_all_or_nothing : forall norm fail input exists_ evs res, text_norm norm ->
  tool norm fail input exists_ = (evs, res) ->
  (forall k, on_disk (db_after (firstn k evs)) = None \/ on_disk (db_after (firstn k evs)) = Some []
             \/ (res <> None /\ firstn k evs = evs))
  /\ (res <> None -> exists items l rows, input = Some items
        /\ Replies (tr_step norm) (tr_new items) (map Item l)
        /\ on_disk (db_after evs) = Some rows /\ Forall2 holds l rows /\ NoDup (map fst rows)).
Proof.
  intros norm fail input ex evs res Hn H. unfold tool in H.
  assert (T : forall k evs, evs = [] \/ evs = [EOpen] \/ evs = [EOpen; ECreate] \/ evs = [EOpen; ECreate; EBegin; ERollback] ->
     on_disk (db_after (firstn k evs)) = None \/ on_disk (db_after (firstn k evs)) = Some []).
  { clear. intros k evs [->|[->|[->| ->]]]; do 5 (try destruct k as [|k]); cbn; auto. }
  destruct input as [items|]; [|injection H as <- <-; split; [intros k; destruct (T k [] ltac:(auto)); auto|congruence]].
  destruct ex; [injection H as <- <-; split; [intros k; destruct (T k [] ltac:(auto)); auto|congruence]|].
  destruct (fail 0%nat); [injection H as <- <-; split; [intros k; destruct (T k [] ltac:(auto)); auto|congruence]|].
  destruct (fail 1%nat); [injection H as <- <-; split; [intros k; destruct (T k [EOpen] ltac:(auto)); auto|congruence]|].
  destruct (fail 2%nat); [injection H as <- <-; split; [intros k; destruct (T k [EOpen; ECreate] ltac:(auto)); auto|congruence]|].
  destruct (fail 3%nat); [injection H as <- <-; split; [intros k; destruct (T k [EOpen; ECreate; EBegin; ERollback] ltac:(auto)); auto|congruence]|].
  destruct (tool_loop norm fail (S (length items)) 4 [] 0 [] (tr_new items)) as [evs' res'] eqn:E. injection H as <- <-.
  destruct (loop_facts norm fail _ _ _ _ _ _ _ _ E) as (l & Hl).
  assert (X : forall j, on_disk (db_after (EOpen :: ECreate :: EBegin :: firstn j (map (fun c => EInsert (row_of c)) l))) = Some []).
  { intros j. unfold db_after. cbn [fold_left db_step]. rewrite firstn_map. rewrite (proj1 (inserts_disk _ _)). reflexivity. }
  assert (Y : forall k last, on_disk (db_after (firstn k (EOpen :: ECreate :: EBegin :: map (fun c => EInsert (row_of c)) l ++ [last]))) = None
     \/ on_disk (db_after (firstn k (EOpen :: ECreate :: EBegin :: map (fun c => EInsert (row_of c)) l ++ [last]))) = Some []
     \/ firstn k (EOpen :: ECreate :: EBegin :: map (fun c => EInsert (row_of c)) l ++ [last]) = EOpen :: ECreate :: EBegin :: map (fun c => EInsert (row_of c)) l ++ [last]).
  { intros k last. do 3 (destruct k as [|k]; [cbn; auto|]). cbn [firstn].
    destruct (firstn_snoc (map (fun c => EInsert (row_of c)) l) last k) as [->|(j & ->)]; [auto|]. right. left. apply X. }
  destruct res' as [[num' pop']|].
  - destruct Hl as (-> & HR & Hd & Hnum & Hpop). split.
    + intros k. destruct (Y k ECommit) as [A|[A|A]]; auto. right. right. split; [discriminate|exact A].
    + intros _. exists items, l, (map row_of l). split; [reflexivity|]. split; [exact HR|]. split; [|split].
      * unfold db_after. cbn [fold_left db_step]. rewrite fold_left_app. cbn [fold_left db_step on_disk].
        destruct (inserts_disk l (DB (Some []) [])) as [A B0].
        change (on_disk {| on_disk := Some []; pending := [] |}) with (Some (@nil row)) in *.
        rewrite A, B0. reflexivity.
      * pose proof (replies_valid norm Hn _ _ HR (Forall_nil _)) as HV.
        pose proof (replies_id norm _ _ HR ltac:(discriminate)) as HI.
        clear -HV HI. induction l as [|c l IH]; cbn [map] in *; [constructor|].
        inversion HV; inversion HI; subst. constructor; [apply holds_row; auto|auto].
      * apply Hd. constructor.
  - subst evs'. split; [|congruence]. intros k. destruct (Y k ERollback) as [A|[A|A]]; auto.
    right. left. rewrite A. unfold db_after. cbn [fold_left db_step]. rewrite fold_left_app. cbn [fold_left db_step on_disk].
    rewrite (proj1 (inserts_disk _ _)). reflexivity.
Qed.
Print Assumptions C64_all_or_nothing.

(** An existing database is not touched. *)
Theorem C64_existing : forall norm fail input, tool norm fail input true = ([], None).
Proof. intros norm fail [items|]; reflexivity. Qed.
Print Assumptions C64_existing.

(** If no database call fails, the reader yields no error and no id comes twice, the
    program gets to the end. *)
Theorem C64_success : forall norm fail items l, (forall n, fail n = false) ->
  Replies (tr_step norm) (tr_new items) (map Item l) -> NoDup (map fst l) ->
  exists evs num pop, tool norm fail (Some items) false = (evs, Some (num, pop)).
Proof.
  intros norm fail items l Hf HR Hd. unfold tool. rewrite !Hf.
  assert (HI := replies_id norm _ _ HR ltac:(discriminate)).
  assert (HU : forall c, In c l -> in_u64 (fst c)).
  { intros c Hc. rewrite Forall_forall in HI. apply (HI (Item c)); [now apply in_map|reflexivity]. }
  assert (G : forall l fuel n (rows : list row) num pop s, Replies (tr_step norm) s (map Item l) -> (length (tr_items s) < fuel)%nat ->
     NoDup (map fst rows ++ map (fun c => as_i64 (fst c)) l) ->
     exists evs num' pop', tool_loop norm fail fuel n rows num pop s = (evs, Some (num', pop'))).
  { clear -Hf. induction l as [|[cid t] l IH]; intros fuel n rows num pop s HR Hl Hd; (destruct fuel as [|fuel]; [lia|]); cbn [map] in HR.
    - inversion HR as [? s' Hs| |]; subst. cbn [tool_loop]. unfold tr_step in Hs. rewrite Hs, Hf. eauto.
    - inversion HR as [|? ? s' ? Hs HR'|]; subst. cbn [tool_loop]. unfold tr_step in Hs. rewrite Hs, Hf. cbn [orb].
      cbn [map fst] in Hd. assert (Hn : ~ In (as_i64 cid) (map fst rows)).
      { apply NoDup_remove_2 in Hd. rewrite in_app_iff in Hd. tauto. }
      destruct (existsb _ _) eqn:Ee.
      { apply existsb_exists in Ee. destruct Ee as (x & Hx & Hq). cbn [fst] in Hq. assert (x = as_i64 cid) by lia. subst. contradiction. }
      unfold tr_next in Hs. apply next_tag_shrinks in Hs; [|discriminate].
      assert (Hl' : (length (tr_items s') < fuel)%nat) by (clear -Hs Hl; lia).
      destruct (IH fuel (S n) (rows ++ [(as_i64 cid, utf8 (pairs_json t))]) (num + 1) (count_tags t pop) s' HR' Hl') as (evs & num' & pop' & ->).
      { rewrite map_app, <- app_assoc. exact Hd. }
      eauto. }
  destruct (G l (S (length items)) 4%nat [] 0 [] (tr_new items) HR) as (evs & num' & pop' & ->); [cbn; lia| |eauto].
  cbn [map app]. clear -HU Hd.
  induction l as [|c l IH]; cbn [map] in *; [constructor|]. inversion Hd as [|? ? Hn Hd']; subst. constructor; [|apply IH; [exact Hd'|intros; apply HU; now right]].
  intros Hi. apply in_map_iff in Hi. destruct Hi as (c' & E & Hc'). apply Hn. apply in_map_iff. exists c'. split; [|exact Hc'].
  pose proof (HU c (or_introl eq_refl)). pose proof (HU c' (or_intror Hc')). unfold as_i64, in_u64 in *.
  Z.div_mod_to_equations. lia.
Qed.
Print Assumptions C64_success.

(** For a changeset file: one row for every changeset element with content. *)
Theorem C64_file : forall norm fail ps, text_norm norm -> (forall n, fail n = false) ->
  Forall wf_part ps ->
  Forall (fun p => match p with Noise e => not_about "tag" e | _ => True end) ps ->
  Forall (fun d => d <> None) (file_value norm ps) ->
  NoDup (map cs_id (full_values norm ps)) ->
  exists evs num pop rows, tool norm fail (Some (file ps)) false = (evs, Some (num, pop))
    /\ on_disk (db_after evs) = Some rows
    /\ Forall2 (fun d => holds (cs_id d, cs_tags d)) (full_values norm ps) rows.
Proof.
  intros norm fail ps Hn Hf HF HN HV Hd.
  pose proof (C49_tag_reader_agrees norm ps HF HN HV) as HR.
  replace (map (fun d => Item (cs_id d, cs_tags d)) (full_values norm ps))
    with (map (@Item (Z * tags)) (map (fun d => (cs_id d, cs_tags d)) (full_values norm ps))) in HR by (rewrite map_map; reflexivity).
  destruct (C64_success norm fail _ _ Hf HR) as (evs & num & pop & E); [now rewrite map_map|].
  destruct (C64_all_or_nothing norm fail _ _ _ _ Hn E) as (_ & H).
  destruct (H ltac:(discriminate)) as (items & l & rows & Hi & HR' & Hrows & HF2 & _). injection Hi as <-.
  exists evs, num, pop, rows. split; [exact E|]. split; [exact Hrows|].
  pose proof (Replies_det (tr_step norm) (tr_det norm) _ _ HR _ HR') as EQ.
  assert (EQ2 : map (fun d => (cs_id d, cs_tags d)) (full_values norm ps) = l).
  { clear -EQ. revert l EQ. generalize (map (fun d => (cs_id d, cs_tags d)) (full_values norm ps)).
    induction l as [|x l IH]; intros [|y m] H; try discriminate; [reflexivity|]. cbn [map] in H. injection H as -> H. f_equal. auto. }
  subst l. clear -HF2. revert rows HF2. induction (full_values norm ps) as [|d l IH]; intros rows H; cbn [map] in H; inversion H; subst; constructor; auto.
Qed.
Print Assumptions C64_file.

(** The example file of C47 without its faulty changeset, and a run that fails at
    its second insert. *)
Example C64_ex :
  let ps := [Noise QOther; CEmpty (lit "changeset") (ex_attrs "1");
             CFull (lit "changeset") (ex_attrs "2") [ex_tag "comment" "a""b"; ex_tag "comment" "c"] (lit "changeset");
             CFull (lit "changeset") (ex_attrs "4") [] (lit "changeset")] in
  Forall wf_part ps /\ Forall (fun d => d <> None) (file_value ex_norm ps)
  /\ on_disk (db_after (fst (tool ex_norm (fun _ => false) (Some (file ps)) false)))
     = Some [(2, lit "[[""comment"",""a\""b""],[""comment"",""c""]]"); (4, lit "[]")]
  /\ on_disk (db_after (fst (tool ex_norm (fun n => Nat.eqb n 5) (Some (file ps)) false))) = Some [].
Proof.
  cbv zeta. split; [|split; [|split; vm_compute; reflexivity]].
  - repeat (apply Forall_cons || apply Forall_nil); cbn [wf_part]; try exact I.
    + split; [reflexivity|]. vm_compute. repeat (constructor; [intros H; repeat (destruct H as [H|H]; [discriminate|]); exact H|]). constructor.
    + split; [reflexivity|]. split; [reflexivity|]. split; [|split].
      * vm_compute. repeat (constructor; [intros H; repeat (destruct H as [H|H]; [discriminate|]); exact H|]). constructor.
      * repeat constructor; vm_compute; discriminate.
      * repeat constructor; vm_compute; intros H; repeat (destruct H as [H|H]; [discriminate|]); exact H.
    + split; [reflexivity|]. split; [reflexivity|]. split; [|split; constructor].
      vm_compute. repeat (constructor; [intros H; repeat (destruct H as [H|H]; [discriminate|]); exact H|]). constructor.
  - vm_compute. repeat (constructor; [discriminate|]). constructor.
Qed.

(** ** C65 *)

Lemma uses_app k a b : uses k (a ++ b) = uses k a + uses k b.
Proof. unfold uses. rewrite filter_app, app_length. lia. Qed.
Lemma uses_nonneg k t : 0 <= uses k t.
Proof. unfold uses. lia. Qed.

(** The counts are right. *)
Definition counts (m : list (str * Z)) (t : list (str * str)) : Prop :=
  NoDup (map fst m) /\ forall k n, In (k, n) m <-> n = uses k t /\ 0 < n.

Lemma count_key_keys k m x : In x (map fst (count_key k m)) <-> x = k \/ In x (map fst m).
Proof.
  induction m as [|[k' n] m IH]; cbn [count_key map fst In]; [intuition congruence|].
  destruct (str_eqb k k') eqn:E; cbn [map fst In].
  - apply str_eqb_eq in E. subst k'. intuition congruence.
  - rewrite IH. tauto.
Qed.
Lemma count_key_nodup k m : NoDup (map fst m) -> NoDup (map fst (count_key k m)).
Proof.
  induction m as [|[k' n] m IH]; cbn [count_key map fst]; intros H; [repeat constructor; easy|].
  inversion H as [|? ? Hn Hd]; subst. destruct (str_eqb k k') eqn:E; cbn [map fst]; constructor; auto.
  rewrite count_key_keys. intros [->|Hi]; [rewrite str_eqb_refl in E; discriminate|contradiction].
Qed.
Lemma count_key_in k m x n : NoDup (map fst m) ->
  In (x, n) (count_key k m) <->
  (x <> k /\ In (x, n) m) \/ (x = k /\ (In (k, n - 1) m \/ (n = 1 /\ ~ In k (map fst m)))).
Proof.
  induction m as [|[k' n'] m IH]; cbn [count_key map fst In]; intros H.
  - split; [intros [[= <- <-]|[]]; right; split; [reflexivity|right; split; [reflexivity|tauto]]|].
    intros [[_ []]|[-> [[]|[-> _]]]]. now left.
  - inversion H as [|? ? Hn Hd]; subst. destruct (str_eqb k k') eqn:E; cbn [In].
    + apply str_eqb_eq in E. subst k'. split.
      * intros [[= <- <-]|Hi]; [right; split; [reflexivity|left; left; f_equal; lia]|].
        left. split; [|now right]. intros ->. apply Hn. apply in_map_iff. now exists (k, n).
      * intros [[Hne [[= -> ->]|Hi]]|[-> [[[= E2]|Hi]|[-> Hc]]]]; [congruence|now right|left; f_equal; lia| |tauto].
        exfalso. apply Hn. apply in_map_iff. now exists (k, n - 1).
    + assert (k <> k') by (intros ->; rewrite str_eqb_refl in E; discriminate). rewrite IH by exact Hd. split.
      * intros [[= <- <-]|[[Hne Hi]|[-> [Hi|[-> Hc]]]]]; [left; split; [congruence|now left]|left; split; [exact Hne|now right]|right; split; [reflexivity|left; now right]|].
        right. split; [reflexivity|]. right. split; [reflexivity|]. intros [Q|Q]; [congruence|contradiction].
      * intros [[Hne [[= -> ->]|Hi]]|[-> [[[= E2 E3]|Hi]|[-> Hc]]]]; [now left|right; left; auto|congruence|right; right; auto|].
        right. right. split; [reflexivity|]. right. split; [reflexivity|]. tauto.
Qed.

Lemma count_key_counts k v m t : counts m t -> counts (count_key k m) (t ++ [(k, v)]).
Proof.
  intros [Hd H]. split; [now apply count_key_nodup|]. intros x n. rewrite count_key_in by exact Hd. rewrite uses_app.
  unfold uses at 2. cbn [filter fst]. pose proof (uses_nonneg x t). split.
  - intros [[Hne Hi]|[-> [Hi|[-> Hc]]]].
    + apply H in Hi. replace (str_eqb k x) with false by (symmetry; apply str_eqb_neq; congruence). cbn [length]. lia.
    + apply H in Hi. rewrite str_eqb_refl. cbn [length]. lia.
    + rewrite str_eqb_refl. cbn [length]. assert (uses k t = 0); [|lia].
      destruct (Z.eq_dec (uses k t) 0); [assumption|]. exfalso. apply Hc. apply in_map_iff. exists (k, uses k t). split; [reflexivity|].
      apply H. lia.
  - intros [Hn Hp]. destruct (str_eqb k x) eqn:E.
    + apply str_eqb_eq in E. subst x. right. split; [reflexivity|]. cbn [length] in Hn.
      destruct (Z.eq_dec (uses k t) 0) as [Z0|Z0].
      * right. split; [lia|]. intros Hi. apply in_map_iff in Hi. destruct Hi as ([k' n'] & [= ->] & Hi). apply H in Hi. lia.
      * left. apply H. lia.
    + left. split; [intros ->; rewrite str_eqb_refl in E; discriminate|]. cbn [length] in Hn. apply H. lia.
Qed.
Lemma count_tags_counts t2 : forall m t, counts m t -> counts (count_tags t2 m) (t ++ t2).
Proof.
  induction t2 as [|[k v] t2 IH]; intros m t H; cbn [count_tags fold_left]; [now rewrite app_nil_r|].
  change (t ++ (k, v) :: t2) with (t ++ [(k, v)] ++ t2). rewrite app_assoc. apply IH. now apply count_key_counts.
Qed.
Lemma pop_counts l : forall m t, counts m t ->
  counts (fold_left (fun m c => count_tags (snd c) m) l m) (t ++ all_tags l).
Proof.
  induction l as [|c l IH]; intros m t H; cbn [fold_left all_tags flat_map]; [now rewrite app_nil_r|].
  rewrite app_assoc. apply IH. now apply count_tags_counts.
Qed.

(** Sorting. *)
Definition lt_pop (a b : Z * str) : Prop := pop_cmp a b = Lt.
Lemma pop_cmp_eq a b : pop_cmp a b = Eq -> a = b.
Proof.
  destruct a as [n k], b as [m j]. unfold pop_cmp. cbn [fst snd]. destruct (n ?= m) eqn:E; try discriminate.
  intros H. apply Z.compare_eq in E. apply str_cmp_eq in H. now subst.
Qed.
Lemma pop_cmp_gt a b : pop_cmp a b = Gt -> lt_pop b a.
Proof.
  destruct a as [n k], b as [m j]. unfold lt_pop, pop_cmp. cbn [fst snd]. rewrite (Z.compare_antisym n m).
  destruct (n ?= m); cbn [CompOpp]; try discriminate; [apply str_cmp_gt|auto].
Qed.
Lemma lt_pop_trans a b c : lt_pop a b -> lt_pop b c -> lt_pop a c.
Proof.
  destruct a as [n k], b as [m j], c as [o i]. unfold lt_pop, pop_cmp. cbn [fst snd].
  destruct (n ?= m) eqn:E1; destruct (m ?= o) eqn:E2; try discriminate; intros H1 H2;
  rewrite ?Z.compare_eq_iff, ?Z.compare_lt_iff in *.
  - subst. rewrite Z.compare_refl. eapply str_cmp_trans; eassumption.
  - replace (n ?= o) with Lt by (symmetry; apply Z.compare_lt_iff; lia). reflexivity.
  - replace (n ?= o) with Lt by (symmetry; apply Z.compare_lt_iff; lia). reflexivity.
  - replace (n ?= o) with Lt by (symmetry; apply Z.compare_lt_iff; lia). reflexivity.
Qed.
Lemma sort_in_perm x l : Permutation (x :: l) (sort_in x l).
Proof.
  induction l as [|y l IH]; cbn [sort_in]; [reflexivity|]. destruct (pop_cmp x y); try reflexivity.
  rewrite <- IH. apply perm_swap.
Qed.
Lemma sort_perm l : Permutation l (sort_pop l).
Proof. induction l as [|x l IH]; cbn [sort_pop fold_right]; [reflexivity|]. fold (sort_pop l). rewrite <- sort_in_perm. now constructor. Qed.
Lemma sort_in_sorted x l : StronglySorted lt_pop l -> ~ In x l -> StronglySorted lt_pop (sort_in x l).
Proof.
  induction 1 as [|y l HS IH HF]; intros Hn; cbn [sort_in]; [repeat constructor|].
  destruct (pop_cmp x y) eqn:E.
  - apply pop_cmp_eq in E. subst. exfalso. apply Hn. now left.
  - constructor; [now constructor|]. constructor; [exact E|]. eapply Forall_impl; [|exact HF]. intros z Hz. eapply lt_pop_trans; eassumption.
  - constructor; [apply IH; intros Hi; apply Hn; now right|].
    eapply Permutation_Forall; [apply sort_in_perm|]. constructor; [now apply pop_cmp_gt|exact HF].
Qed.
Lemma sort_sorted l : NoDup l -> StronglySorted lt_pop (sort_pop l).
Proof.
  induction 1 as [|x l Hn Hd IH]; [constructor|]. cbn [sort_pop fold_right]. fold (sort_pop l). apply sort_in_sorted; [exact IH|].
  intros Hi. apply Hn. eapply Permutation_in; [symmetry; apply sort_perm|exact Hi].
Qed.
Definition gt_pop (a b : Z * str) : Prop := lt_pop b a.
Lemma sorted_app {A} (R : A -> A -> Prop) a b : StronglySorted R a -> StronglySorted R b ->
  (forall x y, In x a -> In y b -> R x y) -> StronglySorted R (a ++ b).
Proof.
  induction 1 as [|x a HS IH HF]; intros Hb H; [exact Hb|]. cbn [app]. constructor.
  - apply IH; [exact Hb|]. intros u v Hu Hv. apply H; [now right|exact Hv].
  - apply Forall_app. split; [exact HF|]. apply Forall_forall. intros y Hy. apply H; [now left|exact Hy].
Qed.
Lemma sorted_rev l : StronglySorted lt_pop l -> StronglySorted gt_pop (rev l).
Proof.
  induction 1 as [|x l HS IH HF]; [constructor|]. cbn [rev]. apply sorted_app; [exact IH|repeat constructor|].
  intros u v Hu [<-|[]]. apply in_rev in Hu. rewrite Forall_forall in HF. exact (HF u Hu).
Qed.
Lemma sorted_split {A} (R : A -> A -> Prop) a b : StronglySorted R (a ++ b) ->
  StronglySorted R a /\ forall x y, In x a -> In y b -> R x y.
Proof.
  induction a as [|x a IH]; cbn [app]; intros H; [split; [constructor|easy]|].
  inversion H as [|? ? HS HF]; subst. destruct (IH HS) as [H1 H2]. apply Forall_app in HF. destruct HF as [F1 F2].
  split; [now constructor|]. intros u v [<-|Hu] Hv; [|auto]. rewrite Forall_forall in F2. auto.
Qed.

Lemma report_filter N l : StronglySorted gt_pop l -> (l <> [] -> 0 < N) ->
  report_lines N l = Ret (map (fun p => (fst p, fst p * 100 / N, snd p)) (filter (fun p => N <=? fst p * 1000) l)).
Proof.
  induction 1 as [|[n k] l HS IH HF]; intros HN; [reflexivity|]. assert (0 < N) by (apply HN; discriminate).
  cbn [report_lines filter fst]. destruct (n * 1000 <? N) eqn:E.
  - replace (N <=? n * 1000) with false by lia.
    replace (filter (fun p => N <=? fst p * 1000) l) with (@nil (Z * str)); [reflexivity|].
    symmetry. clear IH HS HN. induction HF as [|[m j] l H1 HF IH]; [reflexivity|]. cbn [filter fst].
    unfold gt_pop, lt_pop, pop_cmp in H1. cbn [fst snd] in H1.
    assert (m <= n) by (destruct (m ?= n) eqn:Q; [apply Z.compare_eq in Q; lia|rewrite Z.compare_lt_iff in Q; lia|discriminate]).
    replace (N <=? m * 1000) with false by lia. exact IH.
  - replace (N =? 0) with false by lia. rewrite IH by auto. replace (N <=? n * 1000) with true by lia. reflexivity.
Qed.

(** After a successful run, in whatever order the map of counts is iterated: the
    summary gives the number of changesets and of distinct keys; the lines are
    strictly descending by count and then key; each gives a key, how many tags have
    it, and that number as a percentage of the changesets; they are exactly the keys
    with at least one tag per thousand changesets, or the first hundred of these.
    No division by zero. *)
Theorem C65_report : forall norm fail items evs num pop entries l,
  tool norm fail (Some items) false = (evs, Some (num, pop)) ->
  Replies (tr_step norm) (tr_new items) (map Item l) ->
  Permutation entries pop ->
  exists keys lines, report num entries = Ret (Z.of_nat (length l), Z.of_nat (length keys), lines)
    /\ NoDup keys /\ (forall k, In k keys <-> 0 < uses k (all_tags l))
    /\ StronglySorted (fun a b => lt_pop (fst (fst b), snd b) (fst (fst a), snd a)) lines
    /\ (length lines <= 100)%nat
    /\ (forall n p k, In (n, p, k) lines ->
          n = uses k (all_tags l) /\ 0 < n /\ Z.of_nat (length l) <= n * 1000 /\ p = n * 100 / Z.of_nat (length l))
    /\ (forall k, 0 < uses k (all_tags l) -> Z.of_nat (length l) <= uses k (all_tags l) * 1000 ->
          In k (map snd lines)
          \/ (length lines = 100%nat /\ forall n p j, In (n, p, j) lines -> lt_pop (uses k (all_tags l), k) (n, j))).
Proof.
  intros norm fail items evs num pop entries l HT HR HP.
  assert (E : num = Z.of_nat (length l) /\ counts pop (all_tags l)).
  { unfold tool in HT.
    destruct (fail 0%nat); [discriminate|]. destruct (fail 1%nat); [discriminate|]. destruct (fail 2%nat); [discriminate|]. destruct (fail 3%nat); [discriminate|].
    destruct (tool_loop norm fail (S (length items)) 4 [] 0 [] (tr_new items)) as [evs' res'] eqn:E. injection HT as <- ->.
    destruct (loop_facts norm fail _ _ _ _ _ _ _ _ E) as (l' & _ & HR' & _ & Hnum & Hpop).
    pose proof (Replies_det (tr_step norm) (tr_det norm) _ _ HR _ HR') as EQ.
    assert (l = l').
    { clear -EQ. revert l' EQ. induction l as [|x l IH]; intros [|y m] H; try discriminate; [reflexivity|]. cbn [map] in H. injection H as -> H. f_equal. auto. }
    subst l'. split; [lia|]. subst pop. apply (pop_counts l [] []). split; [constructor|]. intros k n. split; [easy|]. unfold uses. cbn. lia. }
  destruct E as [-> Hc]. remember (Z.of_nat (length l)) as N eqn:EN.
  assert (Hce : counts entries (all_tags l)).
  { destruct Hc as [Hd Hc]. split.
    - eapply Permutation_NoDup; [|exact Hd]. symmetry. now apply Permutation_map.
    - intros k n. rewrite <- Hc. split; apply Permutation_in; [exact HP|now symmetry]. }
  clear Hc HP pop HT HR. destruct Hce as [Hd Hc].
  set (L := map (fun '(k, v) => (v, k)) entries : list (Z * str)).
  assert (HL : forall n k, In (n, k) L <-> n = uses k (all_tags l) /\ 0 < n).
  { intros n k. rewrite <- Hc. unfold L. rewrite in_map_iff. split; [intros ([a b] & [= <- <-] & H); exact H|intros H; exists (k, n); auto]. }
  assert (HD : NoDup L).
  { unfold L. clear -Hd. induction entries as [|[k v] m IH]; cbn [map] in *; [constructor|]. inversion Hd as [|? ? Hn Hd']; subst.
    constructor; [|auto]. intros Hi. apply in_map_iff in Hi. destruct Hi as ([a b] & [= -> ->] & Hi). apply Hn. apply in_map_iff. now exists (k, v). }
  pose proof (sorted_rev _ (sort_sorted L HD)) as HS. set (R := rev (sort_pop L)) in *.
  assert (HRL : forall x, In x R <-> In x L).
  { intros x. unfold R. rewrite <- in_rev. split; apply Permutation_in; [symmetry|]; apply sort_perm. }
  rewrite <- (firstn_skipn 100 R) in HS. destruct (sorted_split _ _ _ HS) as [HS1 HS2].
  assert (HN : firstn 100 R <> [] -> 0 < N).
  { intros Hne. destruct (firstn 100 R) as [|[n k] q] eqn:Ef; [congruence|].
    assert (Hi : In (n, k) R) by (rewrite <- (firstn_skipn 100 R), Ef; now left). apply HRL, HL in Hi.
    destruct l as [|c l]; [|rewrite EN; cbn [length]; lia]. cbn in Hi. unfold uses in Hi. cbn in Hi. lia. }
  set (lines := map (fun p : Z * str => (fst p, fst p * 100 / N, snd p)) (filter (fun p => N <=? fst p * 1000) (firstn 100 R))).
  assert (IL : forall n p k, In (n, p, k) lines <-> p = n * 100 / N /\ In (n, k) (firstn 100 R) /\ N <= n * 1000).
  { intros n p k. unfold lines. rewrite in_map_iff. split.
    - intros ([a b] & [= <- <- <-] & H). apply filter_In in H. cbn [fst snd] in H. intuition lia.
    - intros (-> & H1 & H2). exists (n, k). split; [reflexivity|]. apply filter_In. cbn [fst]. split; [exact H1|lia]. }
  exists (map fst entries), lines. split; [|split; [|split; [|split; [|split; [|split]]]]].
  - unfold report. change (map (fun '(k, v) => (v, k)) entries) with L. change (rev (sort_pop L)) with R.
    rewrite report_filter by assumption. cbn [obind]. rewrite map_length. reflexivity.
  - exact Hd.
  - intros k. rewrite in_map_iff. split.
    + intros ([a b] & <- & H). apply Hc in H. cbn [fst]. lia.
    + intros H. exists (k, uses k (all_tags l)). split; [reflexivity|]. apply Hc. auto.
  - unfold lines. clear -HS1. induction HS1 as [|x q HSq IH HF]; cbn [filter map]; [constructor|]. destruct (N <=? fst x * 1000); [|exact IH].
    cbn [map]. constructor; [exact IH|]. apply Forall_forall. intros y Hy. apply in_map_iff in Hy. destruct Hy as (z & <- & Hz).
    apply filter_In in Hz. rewrite Forall_forall in HF. specialize (HF z (proj1 Hz)). destruct x, z. exact HF.
  - unfold lines. rewrite map_length. pose proof (firstn_le_length 100 R).
    assert (H0 : forall q : list (Z * str), (length (filter (fun p : Z * str => (N <=? fst p * 1000)%Z) q) <= length q)%nat) by (clear; induction q as [|x q IH]; cbn [filter length]; [lia|destruct (_ <=? _); cbn [length]; lia]).
    specialize (H0 (firstn 100 R)). lia.
  - intros n p k Hi. apply IL in Hi. destruct Hi as (-> & Hi & Hq).
    assert (Hr : In (n, k) R) by (rewrite <- (firstn_skipn 100 R), in_app_iff; now left). apply HRL, HL in Hr. intuition lia.
  - intros k Hk Hq. assert (Hr : In (uses k (all_tags l), k) R) by (apply HRL, HL; auto).
    rewrite <- (firstn_skipn 100 R), in_app_iff in Hr. destruct Hr as [Hr|Hr].
    + left. apply in_map_iff. exists (uses k (all_tags l), uses k (all_tags l) * 100 / N, k). split; [reflexivity|]. apply IL. auto.
    + right. split.
      * unfold lines. rewrite map_length.
        assert (F : filter (fun p => N <=? fst p * 1000) (firstn 100 R) = firstn 100 R).
        { assert (G : forall x, In x (firstn 100 R) -> (N <=? fst x * 1000) = true).
          { intros [n j] Hx. pose proof (HS2 _ _ Hx Hr) as Hg. unfold gt_pop, lt_pop, pop_cmp in Hg. cbn [fst snd] in *.
            assert (uses k (all_tags l) <= n) by (destruct (uses k (all_tags l) ?= n) eqn:Q; [apply Z.compare_eq in Q; lia|rewrite Z.compare_lt_iff in Q; lia|discriminate]). lia. }
          revert G. clear. induction (firstn 100 R) as [|x q IH]; intros G; [reflexivity|]. cbn [filter]. rewrite (G x (or_introl eq_refl)). f_equal. apply IH. intros; apply G; now right. }
        rewrite F. apply firstn_length_le. destruct (Nat.le_gt_cases 100 (length R)); [assumption|]. rewrite skipn_all2 in Hr by lia. destruct Hr.
      * intros n p j Hi. apply IL in Hi. destruct Hi as (_ & Hi & _). exact (HS2 _ _ Hi Hr).
Qed.
Print Assumptions C65_report.

(** Full statement: the number on a line is the number of changesets tagged with the
    key.  Proved when no changeset repeats a key. *)
Theorem C65_changesets_partial : forall l k, (forall c, In c l -> NoDup (map fst (snd c))) ->
  uses k (all_tags l) = tagged_with k l.
Proof.
  induction l as [|c l IH]; intros k H; [reflexivity|]. cbn [all_tags flat_map]. fold (all_tags l). rewrite uses_app, IH by (intros; apply H; now right).
  unfold tagged_with. cbn [filter]. specialize (H c (or_introl eq_refl)).
  assert (E : uses k (snd c) = if existsb (fun kv => str_eqb (fst kv) k) (snd c) then 1 else 0).
  { clear -H. unfold uses. induction (snd c) as [|[a b] t IHt]; cbn [filter existsb map fst] in *; [reflexivity|].
    inversion H as [|? ? Hn Hd]; subst. specialize (IHt Hd). destruct (str_eqb a k) eqn:E; cbn [orb length]; [|exact IHt].
    apply str_eqb_eq in E. subst a. assert (X : existsb (fun kv => str_eqb (fst kv) k) t = false).
    { destruct (existsb _ t) eqn:Q; [|reflexivity]. apply existsb_exists in Q. destruct Q as (x & Hx & Hq). apply str_eqb_eq in Hq.
      exfalso. apply Hn. apply in_map_iff. now exists x. }
    rewrite X in IHt. lia. }
  rewrite E. destruct (existsb _ (snd c)); cbn [length]; lia.
Qed.
Print Assumptions C65_changesets_partial.

(** A changeset with the same key twice is counted twice: "200% tagged". *)
Theorem C65_repeated_refuted : forall id k v w,
  report 1 (fold_left (fun m c => count_tags (snd c) m) [(id, [(k, v); (k, w)])] []) = Ret (1, 1, [(2, 200, k)])
  /\ tagged_with k [(id, [(k, v); (k, w)])] = 1.
Proof.
  intros id k v w. cbn [fold_left count_tags snd fst count_key]. unfold tagged_with. cbn [filter snd existsb fst].
  rewrite !str_eqb_refl. split; reflexivity.
Qed.
Print Assumptions C65_repeated_refuted.

Example C65_ex :
  let ps := [CFull (lit "changeset") (ex_attrs "2") [ex_tag "comment" "a"; ex_tag "source" "c"] (lit "changeset");
             CFull (lit "changeset") (ex_attrs "3") [ex_tag "comment" "b"; ex_tag "host" "h"] (lit "changeset");
             CFull (lit "changeset") (ex_attrs "4") [] (lit "changeset")] in
  exists evs pop, tool ex_norm (fun _ => false) (Some (file ps)) false = (evs, Some (3, pop))
    /\ report 3 pop = Ret (3, 3, [(2, 66, lit "comment"); (1, 33, lit "source"); (1, 33, lit "host")])
    /\ report 3 (rev pop) = report 3 pop.
Proof. eexists. eexists. split; [vm_compute; reflexivity|]. split; vm_compute; reflexivity. Qed.
