(** C127: osmio-changeset-tags-to-sqlite from the bytes of its input file. *)
From Coq Require Import String ZArith List Bool Lia Permutation Sorted.
From Coq Require Import ZifyBool ZifyNat.
From Verif Require Import Base SpecNum Ints Obj Utf8 Timestamp SpecJson Changesets QuickXml SpecXmlRef SpecDump SpecChangeset ChangesetFacts ChangesetTags
  ChangesetCut SpecDumpText DumpValue PropsChangeset DumpReplies DumpWrite PropsDump Bz2 PropsBz2 TagsTool PropsTool ToolMain.
From Verif Require PropsSpeed.
Import ListNotations.
Open Scope Z_scope.

(** ** Specification *)

(** A number in decimal, without leading zeros; and with spaces before it so that there are
    at least [w] characters. *)
Definition decimal (n : Z) (t : str) : Prop :=
  t <> [] /\ Forall is_digit t /\ dec_value t = n /\ (t = lit "0" \/ hd 48 t <> 48).
Definition aligned (w : nat) (n : Z) (t : str) : Prop :=
  exists k ds, decimal n ds /\ t = repeat 32 k ++ ds /\ length t = Nat.max w (length ds).

(** What is printed about the changesets [l]: how many there are, how many keys they use, and
    for the keys that are most used - at most a hundred, each with a tag in a thousand
    changesets - how many tags have the key and what percentage of the changesets that is,
    in descending order. *)
Definition more_used (a b : Z * Z * str) : Prop :=
  fst (fst b) < fst (fst a) \/ fst (fst b) = fst (fst a) /\ str_cmp (snd b) (snd a) = Lt.
Definition reports (l : list (Z * tags)) (text : str) : Prop :=
  exists tn tm keys lines texts,
    text = lit "Inserted " ++ tn ++ lit " changesets, and got " ++ tm ++ lit " unique tags" ++ [10] ++ concat texts
    /\ decimal (Z.of_nat (length l)) tn /\ decimal (Z.of_nat (length keys)) tm
    /\ NoDup keys /\ (forall k, In k keys <-> exists c, In c l /\ In k (map fst (snd c)))
    /\ Forall2 (fun x t => let '(n, p, k) := x in
         exists a b, aligned 8 n a /\ aligned 3 p b /\ t = a ++ lit " " ++ b ++ lit "% tagged " ++ k ++ [10]) lines texts
    /\ StronglySorted more_used lines /\ (length lines <= 100)%nat
    /\ (forall n p k, In (n, p, k) lines ->
          n = uses k (all_tags l) /\ 0 < n /\ Z.of_nat (length l) <= n * 1000 /\ p = n * 100 / Z.of_nat (length l))
    /\ (forall k, 0 < uses k (all_tags l) -> Z.of_nat (length l) <= uses k (all_tags l) * 1000 ->
          In k (map snd lines)
          \/ (length lines = 100%nat /\ forall x, In x lines -> more_used x (uses k (all_tags l), 0, k))).

(** Nothing is in the table, wherever the program stops. *)
Definition nothing_stored (evs : list event) : Prop :=
  forall k, on_disk (db_after (firstn k evs)) = None \/ on_disk (db_after (firstn k evs)) = Some [].
(** The ids and tags of the changesets of a text. *)
Definition contents (ps : list part) : list (Z * tags) := map (fun d => (cs_id d, cs_tags d)) (full_values q_norm ps).

(** ** Lemmas *)

Lemma q_norm_text : text_norm q_norm.
Proof.
  intros raw s H. apply norm_exact in H as (v & V & _ & S). clear raw. unfold valid_str in *. revert V.
  induction S as [|c v s _ _ S IH|c v s _ _ S IH|v s S IH|n c v s R S IH]; intros V.
  - constructor.
  - inversion V; subst. constructor; auto.
  - inversion V; subst. constructor; [unfold scalar; lia|auto].
  - inversion V as [|? ? ? V']; subst. inversion V'; subst. constructor; [unfold scalar; lia|auto].
  - constructor.
    + unfold refers, legal in R. unfold scalar. destruct R as [[_ ->]|[[_ ->]|[[_ ->]|[[_ ->]|[[_ ->]|[L _]]]]]]; lia.
    + apply IH. rewrite !Forall_app in V. apply V.
Qed.

Lemma show_decimal n : 0 <= n -> decimal n (show_uint n).
Proof.
  intros H. destruct (PropsSpeed.show_uint_canonical n H) as (A & B & C). destruct (show_uint_spec n H) as (_ & _ & D). now repeat split.
Qed.
Lemma align_aligned w n : 0 <= n -> aligned w n (right_align w (show_uint n)).
Proof.
  intros H. exists (w - length (show_uint n))%nat, (show_uint n). split; [now apply show_decimal|]. split; [reflexivity|].
  unfold right_align. rewrite app_length, repeat_length. lia.
Qed.

Lemma uses_pos k l : 0 < uses k (all_tags l) <-> exists c, In c l /\ In k (map fst (snd c)).
Proof.
  unfold uses, all_tags. split.
  - intros H. destruct (filter (fun kv => str_eqb (fst kv) k) (flat_map snd l)) as [|x r] eqn:E; [cbn in H; lia|].
    assert (I : In x (filter (fun kv => str_eqb (fst kv) k) (flat_map snd l))) by (rewrite E; now left).
    apply filter_In in I as [I J]. apply str_eqb_eq in J. apply in_flat_map in I as (c & Hc & Hx). exists c. split; [exact Hc|]. subst k. now apply in_map.
  - intros (c & Hc & Hk). apply in_map_iff in Hk as (x & Hx & I).
    assert (J : In x (filter (fun kv => str_eqb (fst kv) k) (flat_map snd l))).
    { apply filter_In. split; [apply in_flat_map; eauto|]. now apply str_eqb_eq. }
    destruct (filter _ _); [easy|cbn; lia].
Qed.

Lemma lt_pop_more a b : lt_pop (fst (fst b), snd b) (fst (fst a), snd a) <-> more_used a b.
Proof.
  unfold lt_pop, pop_cmp, more_used. cbn [fst snd].
  destruct (Z.compare_spec (fst (fst b)) (fst (fst a))) as [E|E|E].
  - split; [intros H; right; now split|]. intros [H|[_ H]]; [lia|exact H].
  - split; [intros _; now left|reflexivity].
  - split; [discriminate|]. intros [H|[H _]]; lia.
Qed.

Lemma report_reports fail items evs num pop entries l :
  tool q_norm fail (Some items) false = (evs, Some (num, pop)) -> Replies (tr_step q_norm) (tr_new items) (map Item l) -> Permutation entries pop ->
  exists n u lines, report num entries = Ret (n, u, lines) /\ reports l (summary n u ++ flat_map report_line lines).
Proof.
  intros T R P. destruct (C65_report q_norm fail items evs num pop entries l T R P) as (keys & lines & E & N & K & S & L & V & W).
  exists (Z.of_nat (length l)), (Z.of_nat (length keys)), lines. split; [exact E|].
  exists (show_uint (Z.of_nat (length l))), (show_uint (Z.of_nat (length keys))), keys, lines, (map report_line lines).
  split; [unfold summary; rewrite flat_map_concat_map, <- !app_assoc; reflexivity|].
  split; [apply show_decimal; lia|]. split; [apply show_decimal; lia|]. split; [exact N|].
  split; [intros k; rewrite K; apply uses_pos|].
  split.
  { assert (G : forall n p k, In (n, p, k) lines -> 0 <= n /\ 0 <= p).
    { intros n p k I. destruct (V n p k I) as (-> & A & _ & ->). split; [lia|]. destruct (Z.eq_dec (Z.of_nat (length l)) 0) as [Z0|Z0]; [rewrite Z0, Zdiv_0_r; lia|]. apply Z.div_pos; lia. }
    clear - G. induction lines as [|[[n p] k] r IH]; cbn [map]; constructor.
    - destruct (G n p k (or_introl eq_refl)). eexists _, _. split; [now apply align_aligned|]. split; [now apply align_aligned|]. reflexivity.
    - apply IH. intros; eapply G; right; eassumption. }
  split.
  { clear - S. induction S as [|a r S IH F]; constructor; [exact IH|]. eapply Forall_impl; [|exact F]. intros b. apply lt_pop_more. }
  split; [exact L|]. split; [exact V|].
  intros k A B. destruct (W k A B) as [C|[C D]]; [now left|right]. split; [exact C|].
  intros [[n p] j] I. exact (proj1 (lt_pop_more (n, p, j) (uses k (all_tags l), 0, k)) (D n p j I)).
Qed.

(** A source that fails always leads to an error. *)
Lemma q_done_err b : forall p, (q_mode p = QDone -> In QErr (q_out p)) -> q_mode (q_run p b) = QDone -> In QErr (q_out (q_run p b)).
Proof.
  induction b as [|c b IH]; intros p H; [exact H|]. change (q_run p (c :: b)) with (q_run (q_step p c) b). apply IH.
  assert (E : forall m l, In QErr l -> In QErr (q_out (q_go p m l))) by (intros; cbn; apply in_or_app; now right).
  assert (T : forall buf, q_mode (q_tag p buf) <> QDone).
  { intros buf. unfold q_tag, q_end, q_open. destruct buf as [|x buf].
    - discriminate.
    - destruct (x =? 47); [destruct (q_stack p); discriminate|]. destruct (rev (x :: buf)) as [|y r]; [discriminate|].
      destruct (y =? 47); [destruct (tag_parts (rev r))|destruct (tag_parts (x :: buf))]; discriminate. }
  unfold q_step. destruct (q_mode p) as [s| | |[q|] buf|fr q|buf|d|d|] eqn:M; try (exact (fun _ => H eq_refl));
    repeat match goal with
    | |- context [if ?x then _ else _] => destruct x
    end; try (intros X; discriminate X); try (intros X; now elim (T _ X)); intros _; apply E; now left.
Qed.
Lemma io_err b : In QErr (q_items_io b).
Proof.
  unfold q_items_io. pose proof (q_done_err b q_start ltac:(discriminate)) as D. apply in_or_app.
  destruct (q_mode (q_run q_start b)); try (right; now left). left. auto.
Qed.

(** The reader cannot pass an error. *)
Lemma next_tag_err l : forall cur t r s, next_tag q_norm cur t l = (r, s) -> In QErr l -> r <> End /\ (r <> Error -> In QErr (tr_items s)).
Proof.
  induction l as [|i l IH]; intros cur t r s H I; [easy|].
  destruct i as [e|]; [|injection H as <- <-; split; [discriminate|easy]].
  assert (I' : In QErr l) by (destruct I as [I|I]; [discriminate|exact I]). cbn [next_tag] in H.
  destruct e as [n a|n a|n|];
    repeat match type of H with
    | (if ?x then _ else _) = _ => destruct x
    | match ?x with _ => _ end = _ => destruct x
    | (let '(_, _) := ?x in _) = _ => destruct x
    end;
    first [injection H as <- <-; split; [discriminate|now intros]|eapply IH; eassumption].
Qed.
Lemma err_reply l : forall s, Replies (tr_step q_norm) s (map Item l) -> ~ In QErr (tr_items s).
Proof.
  induction l as [|x l IH]; intros s R I; cbn [map] in R.
  - inversion R as [? s' S| |]; subst. unfold tr_step, tr_next in S. now destruct (next_tag_err _ _ _ _ _ S I).
  - inversion R as [|? ? s' ? S R'|]; subst. unfold tr_step, tr_next in S. destruct (next_tag_err _ _ _ _ _ S I) as [_ J].
    apply (IH s' R'). apply J. discriminate.
Qed.

(** ** C127 *)

(** Whatever the file contains and whatever fails: either the program fails, prints no
    report and stores nothing; or the file was decompressed to its end, the reader yields
    changesets and then the end, the table has exactly a row for each of them, and the
    report is about them. *)
Theorem C127_any : forall dec ord fail file exists_ evs text ok, (forall l, Permutation (ord l) l) ->
  main dec ord fail file exists_ = (evs, text, ok) ->
  (ok = false -> text = [] /\ nothing_stored evs)
  /\ (ok = true -> exists z b l rows, file = Some z /\ exists_ = false /\ dec z = (b, true)
        /\ Replies (tr_step q_norm) (tr_new (q_items b)) (map Item l)
        /\ on_disk (db_after evs) = Some rows /\ Forall2 holds l rows /\ NoDup (map fst rows) /\ reports l text
        /\ forall k, firstn k evs = evs \/ on_disk (db_after (firstn k evs)) = None \/ on_disk (db_after (firstn k evs)) = Some []).
Proof.
  intros dec ord fail file ex evs text ok HO H. unfold main in H.
  destruct (tool q_norm fail (opt_map (bz2_q_items dec) file) ex) as [evs' res] eqn:T.
  destruct (C64_all_or_nothing q_norm fail _ _ _ _ q_norm_text T) as [A B].
  destruct res as [[num pop]|].
  - destruct (B ltac:(discriminate)) as (items & l & rows & Hi & R & D & HF & N).
    destruct file as [z|]; [|discriminate]. cbn [opt_map] in Hi. injection Hi as <-.
    assert (ex = false) as -> by (destruct ex; [rewrite C64_existing in T; discriminate|reflexivity]).
    destruct (report_reports fail _ _ _ _ (ord pop) l T R (HO pop)) as (n & u & lines & E & RR). rewrite E in H. injection H as <- <- <-.
    split; [discriminate|]. intros _.
    assert (BZ : exists b, dec z = (b, true)).
    { unfold bz2_q_items in R. destruct (dec z) as [b [|]] eqn:Ed; [eauto|]. exfalso. apply (err_reply _ _ R), io_err. }
    destruct BZ as (b & Ed). unfold bz2_q_items in R. rewrite Ed in R.
    exists z, b, l, rows. repeat (split; [assumption || reflexivity|]). intros k. destruct (A k) as [X|[X|[_ X]]]; auto.
  - injection H as <- <- <-. split; [|discriminate]. intros _. split; [reflexivity|]. intros k. destruct (A k) as [X|[X|[X _]]]; auto. now elim X.
Qed.
Print Assumptions C127_any.

Lemma map_item_inj {A} : forall l m : list A, map Item l = map Item m -> l = m.
Proof. induction l as [|x l IH]; intros [|y m] H; try discriminate; [reflexivity|]. cbn [map] in H. injection H as -> H. f_equal. auto. Qed.

(** If the reader yields these changesets, with different ids, and no database call fails,
    the program succeeds with them. *)
Lemma main_success dec ord fail z l : (forall x, Permutation (ord x) x) -> (forall n, fail n = false) ->
  Replies (tr_step q_norm) (tr_new (bz2_q_items dec z)) (map Item l) -> NoDup (map fst l) ->
  exists evs text rows, main dec ord fail (Some z) false = (evs, text, true)
    /\ on_disk (db_after evs) = Some rows /\ Forall2 holds l rows /\ reports l text.
Proof.
  intros HO HF R N. destruct (C64_success q_norm fail _ l HF R N) as (evs & num & pop & T).
  destruct (report_reports fail _ _ _ _ (ord pop) l T R (HO pop)) as (n & u & lines & E & RR).
  exists evs, (summary n u ++ flat_map report_line lines).
  destruct (C64_all_or_nothing q_norm fail _ _ _ _ q_norm_text T) as [_ B].
  destruct (B ltac:(discriminate)) as (items & l' & rows & Hi & R' & D & H2 & _). injection Hi as <-.
  pose proof (Replies_det (tr_step q_norm) (tr_det q_norm) _ _ R' _ R) as EQ. apply map_item_inj in EQ. subst l'.
  exists rows. split; [|auto]. unfold main. cbn [opt_map]. rewrite T, E. reflexivity.
Qed.

(** A changeset file of any layout, in any number of bzip2 streams: every changeset is
    stored. *)
Theorem C127_export : forall stream dec zs ds ps, decodes stream dec -> Forall2 stream zs ds -> zs <> [] ->
  Forall wf_part ps -> text_of (events ps) (concat ds) ->
  Forall (fun p => match p with Noise e => not_about "tag" e | _ => True end) ps ->
  Forall (fun d => d <> None) (file_value q_norm ps) -> NoDup (map fst (contents ps)) ->
  forall ord fail, (forall l, Permutation (ord l) l) -> (forall n, fail n = false) ->
  exists evs text rows, main dec ord fail (Some (concat zs)) false = (evs, text, true)
    /\ on_disk (db_after evs) = Some rows /\ Forall2 holds (contents ps) rows /\ reports (contents ps) text.
Proof.
  intros stream dec zs ds ps D F Z W T N V U ord fail HO HF.
  apply main_success; [exact HO|exact HF| |exact U].
  destruct (C110_tag_reader stream dec zs ds ps D F Z W T N V) as [R _]. unfold contents. rewrite map_map. exact R.
Qed.
Print Assumptions C127_export.

(** The changesets of a dump. *)
Theorem C127_dump : forall stream dec zs ds cs, decodes stream dec -> Forall2 stream zs ds -> zs <> [] ->
  Forall dumpable cs -> concat ds = dump cs -> NoDup (map cs_id cs) ->
  forall ord fail, (forall l, Permutation (ord l) l) -> (forall n, fail n = false) ->
  exists evs text rows, main dec ord fail (Some (concat zs)) false = (evs, text, true)
    /\ on_disk (db_after evs) = Some rows /\ Forall2 (fun c => holds (cs_id c, cs_tags c)) cs rows
    /\ reports (map (fun c => (cs_id c, cs_tags c)) cs) text.
Proof.
  intros stream dec zs ds cs D F Z C E N ord fail HO HF.
  destruct (main_success dec ord fail (concat zs) (map (fun c => (cs_id c, cs_tags c)) cs) HO HF) as (evs & text & rows & A & B & G & R).
  - unfold bz2_q_items. rewrite (proj1 D zs ds F Z), E. destruct (C108_dump cs C) as (x & _ & _ & _ & R). rewrite map_map. exact R.
  - rewrite map_map. exact N.
  - exists evs, text, rows. split; [exact A|]. split; [exact B|]. split; [|exact R].
    clear - G. revert rows G. induction cs as [|c cs IH]; intros rows G; inversion G; subst; constructor; auto.
Qed.
Print Assumptions C127_dump.

(** A file that has lost its end.  If it ends inside a stream the program fails and nothing
    is stored, whatever else happens. *)
Theorem C127_cut : forall stream dec zs ds z1 z2, decodes stream dec -> Forall2 stream zs ds -> concat zs = z1 ++ z2 -> z2 <> [] ->
  (forall j, (0 < j < length zs)%nat -> z1 <> concat (firstn j zs)) ->
  forall ord fail exists_ evs text ok, (forall l, Permutation (ord l) l) -> main dec ord fail (Some z1) exists_ = (evs, text, ok) ->
  ok = false /\ text = [] /\ nothing_stored evs.
Proof.
  intros stream dec zs ds z1 z2 D F E Z J ord fail ex evs text ok HO H.
  destruct (C127_any dec ord fail _ ex evs text ok HO H) as [A B]. destruct ok; [|split; [reflexivity|exact (A eq_refl)]]. exfalso.
  destruct (B eq_refl) as (z & b & _ & _ & Hz & _ & Hb & _). injection Hz as <-.
  destruct (decodes_cut stream dec zs ds z1 z2 D F E Z) as (b1 & b2 & _ & [Ed|(_ & j & Hj & Ez & _)]); [congruence|exact (J j Hj Ez)].
Qed.
Print Assumptions C127_cut.

(** If it ends between two streams the program fails if the data ends inside a markup.
    Otherwise it succeeds with the changesets that are complete in the data. *)
Theorem C127_boundary : forall stream dec zs ds ps j, decodes stream dec -> Forall2 stream zs ds -> (0 < j <= length zs)%nat ->
  Forall wf_part ps -> text_of (events ps) (concat ds) ->
  Forall (fun p => match p with Noise e => not_about "tag" e | _ => True end) ps ->
  Forall (fun d => d <> None) (file_value q_norm ps) -> NoDup (map fst (contents ps)) ->
  forall ord fail, (forall l, Permutation (ord l) l) -> (forall n, fail n = false) ->
  exists ps1 ps2 (frag : bool), ps = ps1 ++ ps2
    /\ (begun (events ps1) frag (concat (firstn j ds))
        \/ exists n a body1 body2 close ps3, ps2 = CFull n a (body1 ++ body2) close :: ps3
             /\ begun (events ps1 ++ QStart n a :: body1) frag (concat (firstn j ds)))
    /\ exists evs text, main dec ord fail (Some (concat (firstn j zs))) false = (evs, text, negb frag)
       /\ if frag then nothing_stored evs
          else exists rows, on_disk (db_after evs) = Some rows /\ Forall2 holds (contents ps1) rows /\ reports (contents ps1) text.
Proof.
  intros stream dec zs ds ps j D F J W T N V U ord fail HO HF.
  assert (E : concat ds = concat (firstn j ds) ++ concat (skipn j ds)) by (now rewrite <- concat_app, firstn_skipn).
  destruct (C109_tag_reader ps (concat ds) _ _ W T N V E) as [(ps1 & ps2 & frag & Ep & B & R) _].
  exists ps1, ps2, frag. split; [exact Ep|]. split; [exact B|].
  pose proof (C110_changesets_boundary stream dec zs ds j D F J) as Q. rewrite <- Q in R.
  destruct frag.
  - destruct (main dec ord fail (Some (concat (firstn j zs))) false) as [[evs text] ok] eqn:M.
    destruct (C127_any _ _ _ _ _ _ _ _ HO M) as [A C]. destruct ok.
    + exfalso. destruct (C eq_refl) as (z & b & l & _ & Hz & _ & Hb & R' & _). injection Hz as <-.
      unfold bz2_q_items in R. rewrite Hb in R. pose proof (Replies_det (tr_step q_norm) (tr_det q_norm) _ _ R' _ R) as EQ.
      assert (I : In Error (map (@Item (Z * tags)) l)) by (rewrite EQ; apply in_or_app; right; now left).
      apply in_map_iff in I as (? & X & _). discriminate.
    + exists evs, text. split; [reflexivity|]. exact (proj2 (A eq_refl)).
  - rewrite app_nil_r in R. assert (R1 : Replies (tr_step q_norm) (tr_new (bz2_q_items dec (concat (firstn j zs)))) (map Item (contents ps1))).
    { unfold contents. rewrite map_map. exact R. }
    assert (U1 : NoDup (map fst (contents ps1))).
    { assert (X : contents ps = contents ps1 ++ contents ps2).
      { subst ps. unfold contents. rewrite <- map_app. f_equal. unfold full_values. apply filter_map_app. }
      rewrite X, map_app in U. clear - U. induction (map fst (contents ps1)) as [|x m IH]; [constructor|].
      cbn [app] in U. inversion U as [|? ? A B]; subst. constructor; [|auto]. intros I. apply A. apply in_or_app. now left. }
    destruct (main_success dec ord fail _ _ HO HF R1 U1) as (evs & text & rows & M & X). exists evs, text. split; [exact M|]. now exists rows.
Qed.
Print Assumptions C127_boundary.

(** A dump of two changesets in two streams, and what is printed; the same without the last
    byte; and the first stream only, which ends between the changesets. *)
Definition C127_other : changeset := CS 8 (ISOString (lit "2020-01-01T00:00:01Z")) None true None None [(lit "k", lit "v")] 0 0.
Definition C127_bytes : bytes := dump [ex_changeset; C127_other].
Definition C127_half : nat := (length (dump [ex_changeset]) - 7)%nat.
Definition C127_zs : list bytes := [firstn C127_half C127_bytes ++ [0]; skipn C127_half C127_bytes ++ [0]].
Lemma C127_dumpable : Forall dumpable [ex_changeset; C127_other].
Proof.
  constructor; [|constructor; [|constructor]]; unfold dumpable; cbn; unfold in_u32, in_i64, in_u64, valid_str;
    repeat match goal with |- _ /\ _ => split end; try exact I; try lia;
    repeat (apply Forall_cons || apply Forall_nil || (cbn; split) || (unfold scalar; cbn; lia)).
Qed.
Lemma no_zero : forallb (fun c => negb (c =? 0)) C127_bytes = true.
Proof. vm_compute. reflexivity. Qed.
Example C127_ex : decodes ex_stream ex_dec /\ Forall dumpable [ex_changeset; C127_other] /\ NoDup (map cs_id [ex_changeset; C127_other])
  /\ Forall2 ex_stream C127_zs [firstn C127_half C127_bytes; skipn C127_half C127_bytes]
  /\ concat [firstn C127_half C127_bytes; skipn C127_half C127_bytes] = dump [ex_changeset; C127_other]
  /\ (let '(_, text, ok) := main ex_dec (fun l => l) (fun _ => false) (Some (concat C127_zs)) false in (text, ok))
     = (lit "Inserted 2 changesets, and got 2 unique tags" ++ [10] ++ lit "       2 100% tagged k" ++ [10]
        ++ lit "       1  50% tagged comment" ++ [10], true)
  /\ (let '(_, text, ok) := main ex_dec (fun l => l) (fun _ => false) (Some (removelast (concat C127_zs))) false in (text, ok)) = ([], false)
  /\ (let '(evs, text, ok) := main ex_dec (fun l => l) (fun _ => false) (Some (concat (firstn 1 C127_zs))) false in
      (opt_map (map fst) (on_disk (db_after evs)), text, ok))
     = (Some [7], lit "Inserted 1 changesets, and got 2 unique tags" ++ [10] ++ lit "       1 100% tagged k" ++ [10]
        ++ lit "       1 100% tagged comment" ++ [10], true).
Proof.
  assert (N : forall l1 l2, C127_bytes = l1 ++ l2 -> ~ In 0 l1 /\ ~ In 0 l2).
  { intros l1 l2 E. pose proof no_zero as F. rewrite E, forallb_app in F. apply andb_prop in F as [F G]. rewrite forallb_forall in F, G.
    split; intros I; [apply F in I|apply G in I]; discriminate I. }
  split; [exact (proj1 C110_ex)|]. split; [exact C127_dumpable|]. split; [|split; [|split; [|split; [|split]]]].
  - repeat constructor; cbn; intuition congruence.
  - destruct (N (firstn C127_half C127_bytes) (skipn C127_half C127_bytes)) as [A B]; [now rewrite firstn_skipn|].
    unfold C127_zs. constructor; [split; [exact A|reflexivity]|]. constructor; [split; [exact B|reflexivity]|constructor].
  - unfold concat. rewrite app_nil_r. apply firstn_skipn.
  - vm_compute. reflexivity.
  - vm_compute. reflexivity.
  - vm_compute. reflexivity.
Qed.
