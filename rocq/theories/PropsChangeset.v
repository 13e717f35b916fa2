(** C47-C50: changeset files.  [norm] is what quick-xml makes of a raw attribute
    value; all theorems hold whatever it is. *)
From Coq Require Import String ZArith List Bool Lia.
From Verif Require Import Base SpecNum Ints Timestamp Obj SpecJson Changesets SpecChangeset ChangesetFacts ChangesetTags.
Import ListNotations.
Open Scope Z_scope.

(** ** C47 *)

(** The replies of ChangesetReader on a file are, one for one and in order, the
    changesets of the file (an error for an element that is not a changeset),
    followed by the end. *)
Lemma cs_step_det norm s r s' r' s'' : cs_step norm s r s' -> cs_step norm s r' s'' -> r = r' /\ s' = s''.
Proof.
  assert (Htl : forall f t l x, tags_loop norm f t l = Done x -> forall g, (f <= g)%nat -> tags_loop norm g t l = Done x).
  { induction f as [|f IH]; intros t l x H g Hg; [discriminate|].
    destruct g as [|g]; [lia|]. assert (Hg' : (f <= g)%nat) by lia. cbn [tags_loop] in *.
    destruct l as [|[[n a|n a|n|]|] l]; eauto;
    repeat match goal with
    | H : context [if ?c then _ else _] |- _ => destruct c; eauto
    | H : context [match read_tag ?x ?y with _ => _ end] |- _ => destruct (read_tag x y) as [[? ?]|]; eauto
    end. }
  assert (Hn : forall f l x, next_changeset norm f l = Done x -> forall g, (f <= g)%nat -> next_changeset norm g l = Done x).
  { induction f as [|f IH]; intros l x H g Hg; [discriminate|].
    destruct g as [|g]; [lia|]. assert (Hg' : (f <= g)%nat) by lia. cbn [next_changeset] in *.
    destruct l as [|[[n a|n a|n|]|] l]; eauto; (destruct (local_is n "changeset"); [|eauto]);
    (destruct (take_attrs norm builder0 a) as [b|]; [|eauto]); eauto.
    destruct (tags_loop norm f [] l) as [|y] eqn:E; [discriminate|].
    rewrite (Htl _ _ _ _ E g Hg'). exact H. }
  intros [f Hf] [g Hg].
  pose proof (Hn _ _ _ Hf (f + g)%nat ltac:(lia)) as A.
  pose proof (Hn _ _ _ Hg (f + g)%nat ltac:(lia)) as B0. rewrite A in B0. injection B0 as <- <-. now split.
Qed.

Theorem C47_every_changeset : forall norm ps, Forall wf_part ps ->
  exists rs, Replies (cs_step norm) (file ps) rs
    /\ Forall2 replies (file_value norm ps) rs
    /\ forall rs', Replies (cs_step norm) (file ps) rs' -> rs' = rs.
Proof.
  intros norm ps H. destruct (reads_file norm ps H) as (rs & A & C). exists rs. split; [exact A|].
  split; [exact C|]. intros rs' A'. eapply Replies_det; [apply cs_step_det|exact A'|exact A].
Qed.
Print Assumptions C47_every_changeset.

(** Names are compared by their local part. *)
Theorem C47_local_part : forall p l s, ~ In 58 p -> ~ In 58 s -> local_part (p ++ 58 :: l) = l /\ local_part s = s.
Proof.
  intros p l s Hp Hs. unfold local_part. split; [|now destruct (in_dec Z.eq_dec 58 s)].
  destruct (in_dec Z.eq_dec 58 (p ++ 58 :: l)) as [_|H]; [|exfalso; apply H, in_or_app; right; now left].
  induction p as [|c p IH]; [reflexivity|]. cbn [app prefix_length]. destruct (Z.eq_dec c 58) as [->|N]; [exfalso; apply Hp; now left|].
  apply IH. intros H. apply Hp. now right.
Qed.
Print Assumptions C47_local_part.

(** The queries about tags of a changeset agree with each other. *)
Theorem C47_tag_queries : forall c,
  (forall k, cs_has_tag c k = true <-> exists v, cs_tag c k = Some v) /\
  (cs_untagged c = true <-> forall k, cs_tag c k = None) /\
  (cs_tagged c = true <-> exists k v, cs_tag c k = Some v) /\
  (NoDup (map fst (cs_tags c)) ->
     exists ks, NoDup ks /\ length ks = cs_num_tags c /\ forall k, In k ks <-> exists v, cs_tag c k = Some v).
Proof.
  intros c.
  assert (G : forall k, In k (map fst (cs_tags c)) <-> exists v, cs_tag c k = Some v).
  { intros k. unfold cs_tag. induction (cs_tags c) as [|(k' & v') t IH]; [split; [intros []|intros (v & [=])]|].
    unfold tags_get in *. cbn [map fst In filter_map]. destruct (str_eqb k' k) eqn:E.
    - apply str_eqb_eq in E as <-. split; [intros _; now exists v'|intros _; now left].
    - apply str_eqb_neq in E. rewrite <- IH. split; [intros [H|H]; [congruence|exact H]|intros H; now right]. }
  assert (U : cs_untagged c = true <-> forall k, cs_tag c k = None).
  { unfold cs_untagged, cs_num_tags. destruct (cs_tags c) as [|(k & v) t] eqn:E.
    - split; [|reflexivity]. intros _ k. unfold cs_tag. now rewrite E.
    - cbn [length Nat.eqb]. split; [discriminate|]. intros H. exfalso. destruct (proj1 (G k)) as (v0 & Hv); [now left|]. congruence. }
  split; [|split; [exact U|split]].
  - intros k. unfold cs_has_tag. destruct (cs_tag c k) as [v|]; cbn [is_some]; split; intros H; try reflexivity; try discriminate; [now exists v|now destruct H].
  - unfold cs_tagged. rewrite negb_true_iff. split.
    + intros H. destruct (cs_tags c) as [|(k & v) t] eqn:E.
      * exfalso. assert (cs_untagged c = true); [|congruence]. unfold cs_untagged, cs_num_tags. now rewrite E.
      * exists k. apply G. now left.
    + intros (k & v & H). destruct (cs_untagged c); [|reflexivity]. rewrite (proj1 U eq_refl k) in H. discriminate.
  - intros N. exists (map fst (cs_tags c)). split; [exact N|]. split; [apply map_length|exact G].
Qed.
Print Assumptions C47_tag_queries.

(** A file with text, a bound element, a prefixed empty changeset, a changeset
    with a comment inside and a repeated key, a changeset without num_changes,
    and one more. *)
Definition ex_norm (s : str) : option str := Some s.
Definition at_ (k v : string) : qattr := AOk (lit k) (lit v).
Definition ex_tag (k v : string) : qevent := QEmpty (lit "tag") [at_ "k" k; at_ "v" v].
Definition ex_attrs (id : string) : list qattr :=
  [at_ "id" id; at_ "created_at" "2020-01-01T00:00:00Z"; at_ "open" "false"; at_ "min_lat" "1.5";
   at_ "num_changes" "3"; at_ "user" "u"; at_ "uid" "7"; at_ "comments_count" "0"].
Definition ex_parts : list part :=
  [Noise QOther; Noise (QStart (lit "osm") []); Noise (QEmpty (lit "bound") [at_ "box" "1"]);
   CEmpty (lit "x:changeset") (ex_attrs "1");
   CFull (lit "changeset") (at_ "closed_at" "2020-01-02T00:00:00Z" :: ex_attrs "2")
     [QOther; ex_tag "comment" "a"; QStart (lit "discussion") []; QEnd (lit "discussion");
      ex_tag "comment" "b"; ex_tag "k" "v"] (lit "changeset");
   CFull (lit "changeset") [at_ "id" "3"; at_ "created_at" "t"; at_ "open" "true"; at_ "comments_count" "0"] [QOther] (lit "changeset");
   CFull (lit "changeset") (ex_attrs "4") [ex_tag "z" ""] (lit "changeset");
   Noise (QEnd (lit "osm"))].

Ltac nodup_tac := repeat (constructor; [cbn; intros Hx; repeat destruct Hx as [Hx|Hx]; try discriminate Hx; exact Hx|]); try constructor.
Ltac neq_tac := let X := fresh in intros X; discriminate X.
Example C47_ex : Forall wf_part ex_parts
  /\ map (fun d => match d with Some c => Some (cs_id c, cs_tags c) | None => None end) (file_value ex_norm ex_parts)
     = [Some (1, []); Some (2, [(lit "comment", lit "a"); (lit "comment", lit "b"); (lit "k", lit "v")]);
        None; Some (4, [(lit "z", [])])]
  /\ next_changeset ex_norm 20 (file (skipn 4 ex_parts))
     = Done (Item (CS 2 (ISOString (lit "2020-01-01T00:00:00Z")) (Some (ISOString (lit "2020-01-02T00:00:00Z")))
                      false (Some 7) (Some (lit "u")) [(lit "comment", lit "b"); (lit "k", lit "v")] 3 0),
             file (skipn 5 ex_parts)).
Proof.
  split; [|split; reflexivity].
  unfold ex_parts.
  repeat (apply Forall_cons || apply Forall_nil); cbn [wf_part not_about]; try exact I; try neq_tac.
  - split; [reflexivity|]. unfold distinct. cbn. nodup_tac.
  - split; [reflexivity|]. split; [reflexivity|]. split; [unfold distinct; cbn; nodup_tac|].
    split; [|unfold tag_distinct; cbn; repeat (apply Forall_cons || apply Forall_nil); unfold distinct; cbn; nodup_tac].
    repeat (apply Forall_cons || apply Forall_nil); cbn [not_about ex_tag]; try exact I; neq_tac.
  - split; [reflexivity|]. split; [reflexivity|]. split; [unfold distinct; cbn; nodup_tac|].
    split; [|unfold tag_distinct; cbn; repeat (apply Forall_cons || apply Forall_nil); unfold distinct; cbn; nodup_tac].
    repeat (apply Forall_cons || apply Forall_nil); cbn [not_about ex_tag]; try exact I; neq_tac.
  - split; [reflexivity|]. split; [reflexivity|]. split; [unfold distinct; cbn; nodup_tac|].
    split; [|unfold tag_distinct; cbn; repeat (apply Forall_cons || apply Forall_nil); unfold distinct; cbn; nodup_tac].
    repeat (apply Forall_cons || apply Forall_nil); cbn [not_about ex_tag]; try exact I; neq_tac.
Qed.

(** ** C48 *)

(** Full statement: next_changeset returns on every input.  It returns exactly
    on the inputs that do not end inside a changeset... *)
Theorem C48_terminates_partial : forall norm l, Forall item_distinct l ->
  ((exists fuel x, next_changeset norm fuel l = Done x) <-> ~ ends_inside norm l).
Proof.
  intros norm l Hd. split.
  - intros (f & x & H) He. rewrite (next_stuck norm l Hd He) in H. discriminate.
  - intros Hn. destruct (next_stops norm l Hd) as [[x Hx]|H]; [|contradiction]. eauto.
Qed.
Print Assumptions C48_terminates_partial.

(** ... and on the others it runs for ever: no number of steps is enough. *)
Theorem C48_terminates_refuted : forall norm l, Forall item_distinct l -> ends_inside norm l ->
  forall fuel, next_changeset norm fuel l = Out.
Proof. exact next_stuck. Qed.
Print Assumptions C48_terminates_refuted.

(** Cutting any well-formed file after the start of a changeset with content and
    before its end gives such an input. *)
Theorem C48_truncation_refuted : forall norm pre n a b1 b2 close rest,
  Forall wf_part (CFull n a (b1 ++ b2) close :: rest) -> Forall no_start pre ->
  Forall item_distinct (map QEv pre) -> Forall item_distinct (map QEv b1) ->
  changeset_value norm a (b1 ++ b2) <> None ->
  forall fuel, next_changeset norm fuel (map QEv pre ++ QEv (QStart n a) :: map QEv b1) = Out.
Proof.
  intros norm pre n a b1 b2 close rest HF Hpre Hd1 Hd2 Hv.
  inversion HF as [|? ? Hw _]; subst. destruct Hw as (Hn & Hc & Hd & Hb & Ht).
  rewrite changeset_value_eq in Hv by assumption.
  destruct (sequence (map (tag_value norm) (tag_elements (b1 ++ b2)))) as [ts|] eqn:Es; [|congruence].
  unfold attrs_value in Hv. destruct (take_attrs norm builder0 a) as [b|] eqn:Eb; [|congruence].
  apply next_stuck.
  - apply Forall_app. split; [exact Hd1|]. constructor; [exact Hd|exact Hd2].
  - exists pre, n, a, b1. split; [reflexivity|]. split; [exact Hpre|]. split; [exact Hn|].
    split; [apply readable_take; [exact Hd|now exists b]|].
    apply Forall_app in Hb as [Hb1 _]. split.
    + eapply Forall_impl; [|exact Hb1]. intros [?|?|?|]; cbn; tauto.
    + unfold tag_elements in *. rewrite filter_map_app, map_app in Es. clear -Es.
      revert ts Es. generalize (map (tag_value norm) (filter_map tag_attrs b2)). intros l2.
      induction (filter_map tag_attrs b1) as [|x l IH]; intros ts Es; constructor.
      * cbn in Es. destruct (tag_value norm x); [discriminate|discriminate].
      * cbn in Es. destruct (tag_value norm x); [|discriminate].
        destruct (sequence (map (tag_value norm) l ++ l2)) eqn:E; [|discriminate]. eapply IH. reflexivity.
Qed.
Print Assumptions C48_truncation_refuted.

Definition ex_cut : list qitem :=
  [QEv QOther; QEv (QStart (lit "osm") []); QEv (QStart (lit "changeset") (ex_attrs "2")); QEv (ex_tag "a" "b")].
Example C48_ex : Forall item_distinct ex_cut /\ ends_inside ex_norm ex_cut
  /\ next_changeset ex_norm 1000 ex_cut = Out /\ ~ ends_inside ex_norm (firstn 2 ex_cut).
Proof.
  assert (Hd : Forall item_distinct ex_cut).
  { unfold ex_cut. repeat (apply Forall_cons || apply Forall_nil); cbn [item_distinct ex_tag]; try exact I;
    unfold distinct; cbn; nodup_tac. }
  assert (He : ends_inside ex_norm ex_cut).
  { exists [QOther; QStart (lit "osm") []], (lit "changeset"), (ex_attrs "2"), [ex_tag "a" "b"].
    split; [reflexivity|]. split; [repeat (apply Forall_cons || apply Forall_nil); cbn [no_start]; [exact I|neq_tac]|].
    split; [reflexivity|]. split.
    - unfold readable. split; [cbn; intros Hx; repeat destruct Hx as [Hx|Hx]; try discriminate Hx; exact Hx|].
      repeat match goal with |- _ /\ _ => split end; cbn; discriminate.
    - split; [repeat constructor|]. cbn. repeat constructor. discriminate. }
  split; [exact Hd|]. split; [exact He|]. split; [now apply C48_terminates_refuted|].
  apply C48_terminates_partial; [|exists 3%nat, (End, []); reflexivity].
  inversion Hd as [|? ? A Hd1]; inversion Hd1; subst. repeat constructor; assumption.
Qed.

(** The tag reader returns on every input, and iterating it ends. *)
Theorem C48_tag_reader_ends : forall norm s, exists rs, Replies (tr_step norm) s rs.
Proof. exact tag_reader_ends. Qed.
Print Assumptions C48_tag_reader_ends.

(** ** C49 *)

(** The changesets that are not empty elements. *)
Definition full_values norm (ps : list part) : list changeset :=
  filter_map (fun p => match p with CFull _ a body _ => changeset_value norm a body | _ => None end) ps.

Lemma parse_u32_u64 s v : parse_u32 s = Some v -> parse_u64 s = Some v.
Proof.
  unfold parse_u32, parse_u64. rewrite !parse_int_spec by lia. intros [A B0]. split; [exact A|lia].
Qed.

Lemma sequence_good norm l ts : sequence (map (tag_value norm) l) = Some ts ->
  filter_map (tag_value norm) l = ts
  /\ length (filter (fun a => negb (is_some (tag_value norm a))) l) = O.
Proof.
  revert ts. induction l as [|x l IH]; intros ts H; [injection H as <-; now split|].
  cbn [map sequence] in H. cbn [filter_map filter]. destruct (tag_value norm x) as [kv|] eqn:E; [|discriminate].
  destruct (sequence (map (tag_value norm) l)) as [ts'|]; [|discriminate]. injection H as <-.
  destruct (IH ts' eq_refl) as [A B0]. cbn [is_some negb]. split; [now f_equal|exact B0].
Qed.

Lemma changeset_value_parts norm a body d : changeset_value norm a body = Some d ->
  proper a /\ own_id norm a = Some (cs_id d) /\ sequence (map (tag_value norm) (tag_elements body)) = Some (cs_tags d).
Proof.
  unfold changeset_value, own_id. intros H.
  change (existsb (fun a => match a with AErr => true | AOk _ _ => false end) a) with (has_err a) in H.
  destruct (has_err a) eqn:Ee; [discriminate|]. apply has_err_proper in Ee. split; [exact Ee|].
  destruct (required (value norm parse_u32) (raw_attr a "id")) as [id|] eqn:Ei; [|discriminate].
  repeat match type of H with match ?x with _ => _ end = _ => destruct x as [?|] eqn:?; [|discriminate H] end.
  injection H as <-. cbn [cs_id cs_tags]. split; [|first [assumption|reflexivity]].
  unfold required, value in *. destruct (raw_attr a "id") as [raw|]; [|discriminate].
  destruct (norm raw) as [t|]; [|discriminate]. cbn [opt_bind] in *. now apply parse_u32_u64.
Qed.

Theorem C49_tag_reader_agrees : forall norm ps, Forall wf_part ps ->
  Forall (fun p => match p with Noise e => not_about "tag" e | _ => True end) ps ->
  Forall (fun d => d <> None) (file_value norm ps) ->
  Replies (tr_step norm) (tr_new (file ps)) (map (fun d => Item (cs_id d, cs_tags d)) (full_values norm ps)).
Proof.
  intros norm ps HF HN HV.
  assert (A : Forall (tr_part norm) ps
              /\ flat_map (tr_value norm) ps = map (fun d => Item (cs_id d, cs_tags d)) (full_values norm ps)).
  { clear HF. induction ps as [|p ps IH]; [split; [constructor|reflexivity]|].
    inversion HN as [|? ? Hp HN']; subst. unfold file_value, full_values in *. cbn [filter_map] in *.
    destruct p as [e|n a|n a body close]; cbn [part_value] in HV.
    - destruct (IH HN' HV) as [A1 A2]. split; [constructor; assumption|exact A2].
    - inversion HV; subst. destruct (IH HN' H2) as [A1 A2]. split; [constructor; [exact I|assumption]|exact A2].
    - inversion HV as [|? ? Hd HV']; subst. destruct (IH HN' HV') as [A1 A2].
      destruct (changeset_value norm a body) as [d|] eqn:Ed; [|congruence].
      destruct (changeset_value_parts _ _ _ _ Ed) as (Ep & Ei & Es).
      split; [constructor; [split; [exact Ep|congruence]|assumption]|].
      cbn [flat_map tr_value map]. rewrite Ei. unfold bad_tags, good_tags.
      destruct (sequence_good _ _ _ Es) as [G1 G2]. rewrite G1, G2. cbn [repeat app]. now f_equal. }
  destruct A as [A1 A2]. rewrite <- A2. unfold tr_new. now apply tag_reader_file.
Qed.
Print Assumptions C49_tag_reader_agrees.

(** Together with what the changeset reader says about the same file: the
    replies of the two readers are about the same changesets. *)
Corollary C49_same_changesets : forall norm ps, Forall wf_part ps ->
  Forall (fun p => match p with Noise e => not_about "tag" e | CEmpty _ _ => False | _ => True end) ps ->
  Forall (fun d => d <> None) (file_value norm ps) ->
  exists cs ts, Replies (cs_step norm) (file ps) (map Item cs)
    /\ Replies (tr_step norm) (tr_new (file ps)) (map Item ts)
    /\ Forall2 (fun c it => cs_id c = fst it /\ forall k, cs_tag c k = last_value (snd it) k) cs ts.
Proof.
  intros norm ps HF HN HV.
  destruct (reads_file norm ps HF) as (rs & HR & HD).
  assert (HN' : Forall (fun p => match p with Noise e => not_about "tag" e | _ => True end) ps).
  { eapply Forall_impl; [|exact HN]. intros [?|? ?|? ? ? ?]; tauto. }
  pose proof (C49_tag_reader_agrees norm ps HF HN' HV) as HT.
  assert (E : file_value norm ps = map Some (full_values norm ps)).
  { clear -HN HV. induction ps as [|p ps IH]; [reflexivity|]. inversion HN; subst.
    unfold file_value, full_values in *. cbn [filter_map] in *. destruct p as [e|n a|n a body close]; cbn [part_value] in *.
    - auto.
    - contradiction.
    - inversion HV; subst. destruct (changeset_value norm a body) as [d|]; [|congruence]. cbn [map]. f_equal. auto. }
  rewrite E in HD. clear E HV HN HN'.
  assert (X : exists cs, rs = map Item cs /\ Forall2 as_map (full_values norm ps) cs).
  { clear -HD. revert rs HD. induction (full_values norm ps) as [|d ds IH]; intros rs HD; inversion HD; subst.
    - exists []. split; [reflexivity|constructor].
    - destruct y as [c| |]; cbn [replies] in *; try contradiction.
      destruct (IH _ H3) as (cs & -> & HC). exists (c :: cs). split; [reflexivity|constructor; assumption]. }
  destruct X as (cs & -> & HC). exists cs, (map (fun d => (cs_id d, cs_tags d)) (full_values norm ps)).
  split; [exact HR|]. rewrite map_map. split; [exact HT|].
  clear -HC. induction HC as [|d c ds cs H HC IH]; cbn [map]; constructor; [|exact IH].
  unfold as_map in H. cbn [fst snd]. split; [apply H|]. intros k. apply H.
Qed.
Print Assumptions C49_same_changesets.

Example C49_ex : let ps := firstn 3 ex_parts ++ [nth 4 ex_parts (Noise QOther); nth 6 ex_parts (Noise QOther)] in
  map (fun d => match d with Some c => Some (cs_id c) | None => None end) (file_value ex_norm ps) = [Some 2; Some 4]
  /\ tr_next ex_norm (tr_new (file ps))
     = (Item (2, [(lit "comment", lit "a"); (lit "comment", lit "b"); (lit "k", lit "v")]),
        TR (Some 2) [] (file (skipn 4 ps))).
Proof. split; reflexivity. Qed.

(** ** C50 *)

(** Full statement: on every input, tags are returned only under the id of their
    own changeset.  It holds for files in which every changeset with content has
    an id, also in the presence of bad tags: for every such changeset there is
    one error per bad tag and then its own id with its own good tags. *)
Theorem C50_own_tags_partial : forall norm ps, Forall wf_part ps -> Forall (tr_part norm) ps ->
  Replies (tr_step norm) (tr_new (file ps)) (flat_map (tr_value norm) ps).
Proof. intros. unfold tr_new. now apply tag_reader_file. Qed.
Print Assumptions C50_own_tags_partial.

Lemma take_id_none norm a : forall cur, proper a -> raw_attr a "id" = None -> take_id norm cur a = (cur, true).
Proof.
  induction a as [|[|key raw] a IH]; intros cur Hp Hr; [reflexivity|exfalso; apply Hp; now left|].
  rewrite raw_attr_cons in Hr. cbn [take_id]. destruct (local_is key "id"); [discriminate|].
  apply IH; [|exact Hr]. intros Hin. apply Hp. now right.
Qed.

(** It is false when a changeset has no id: its tags are returned under the id
    of the changeset before it. *)
Theorem C50_missing_id_refuted : forall norm n1 a1 body1 close1 n2 a2 body2 close2 i,
  wf_part (CFull n1 a1 body1 close1) -> wf_part (CFull n2 a2 body2 close2) ->
  proper a1 -> own_id norm a1 = Some i -> bad_tags norm body1 = O ->
  proper a2 -> raw_attr a2 "id" = None -> bad_tags norm body2 = O ->
  Replies (tr_step norm) (tr_new (file [CFull n1 a1 body1 close1; CFull n2 a2 body2 close2]))
    [Item (i, good_tags norm body1); Item (i, good_tags norm body2)].
Proof.
  intros norm n1 a1 body1 close1 n2 a2 body2 close2 i W1 W2
    Hp1 Hi1 Hz1 Hp2 Hi2 Hz2.
  destruct W1 as (Hn1 & Hc1 & Hd1 & Hb1 & Ht1). destruct W2 as (Hn2 & Hc2 & Hd2 & Hb2 & Ht2).
  assert (R3 : Replies (tr_step norm) (TR (Some i) [] []) []).
  { apply Replies_end with (s' := TR (Some i) [] []). reflexivity. }
  assert (R2 : Replies (tr_step norm) (TR (Some i) [] (file [CFull n2 a2 body2 close2])) [Item (i, good_tags norm body2)]).
  { unfold file. cbn [flat_map render app]. rewrite app_nil_r.
    eapply tr_replies_eq; [|pose proof (tr_body norm body2 close2 [] i [] Hb2 Ht2 Hc2 R3 []) as X; rewrite Hz2 in X; exact X].
    unfold tr_next. cbn [tr_id tr_tags tr_items next_tag]. apply local_is_eq in Hn2. rewrite Hn2.
    rewrite take_id_none by assumption. reflexivity. }
  unfold tr_new, file. cbn [flat_map render app]. rewrite <- app_assoc. cbn [app].
  eapply tr_replies_eq; [|pose proof (tr_body norm body1 close1 _ i _ Hb1 Ht1 Hc1 R2 []) as X; rewrite Hz1 in X; exact X].
  unfold tr_next. cbn [tr_id tr_tags tr_items next_tag]. apply local_is_eq in Hn1. rewrite Hn1.
  rewrite take_id_spec by (try assumption; congruence). rewrite Hi1. unfold file. cbn [flat_map render app].
  reflexivity.
Qed.
Print Assumptions C50_missing_id_refuted.

(** It is also false when the id is not a number: the error is followed by the
    tags under the id of the changeset before. *)
Lemma take_id_bad norm a raw : forall cur, proper a -> distinct a -> raw_attr a "id" = Some raw ->
  value norm parse_u64 raw = None -> take_id norm cur a = (cur, false).
Proof.
  induction a as [|[|key raw'] a IH]; intros cur Hp Hd Hr Hv; [discriminate|exfalso; apply Hp; now left|].
  assert (Hp' : proper a) by (intros Hin; apply Hp; now right).
  unfold distinct, local_names in Hd. cbn [filter_map] in Hd. inversion Hd as [|? ? Hni Hnd]; subst.
  rewrite raw_attr_cons in Hr. cbn [take_id]. destruct (local_is key "id").
  - injection Hr as ->. unfold value in Hv. now rewrite Hv.
  - now apply IH.
Qed.

Theorem C50_bad_id_refuted : forall norm n1 a1 body1 close1 n2 a2 raw body2 close2 i,
  wf_part (CFull n1 a1 body1 close1) -> wf_part (CFull n2 a2 body2 close2) ->
  proper a1 -> own_id norm a1 = Some i -> bad_tags norm body1 = O ->
  proper a2 -> raw_attr a2 "id" = Some raw -> value norm parse_u64 raw = None -> bad_tags norm body2 = O ->
  Replies (tr_step norm) (tr_new (file [CFull n1 a1 body1 close1; CFull n2 a2 body2 close2]))
    [Item (i, good_tags norm body1); Error; Item (i, good_tags norm body2)].
Proof.
  intros norm n1 a1 body1 close1 n2 a2 raw body2 close2 i W1 W2
    Hp1 Hi1 Hz1 Hp2 Hi2 Hv2 Hz2.
  destruct W1 as (Hn1 & Hc1 & Hd1 & Hb1 & Ht1). destruct W2 as (Hn2 & Hc2 & Hd2 & Hb2 & Ht2).
  assert (R3 : Replies (tr_step norm) (TR (Some i) [] []) []).
  { apply Replies_end with (s' := TR (Some i) [] []). reflexivity. }
  assert (R2 : Replies (tr_step norm) (TR (Some i) [] (file [CFull n2 a2 body2 close2])) [Error; Item (i, good_tags norm body2)]).
  { unfold file. cbn [flat_map render app]. rewrite app_nil_r.
    eapply Replies_error; [|pose proof (tr_body norm body2 close2 [] i [] Hb2 Ht2 Hc2 R3 []) as X; rewrite Hz2 in X; exact X].
    unfold tr_step, tr_next. cbn [tr_id tr_tags tr_items next_tag]. apply local_is_eq in Hn2. rewrite Hn2.
    rewrite (take_id_bad norm a2 raw) by assumption. reflexivity. }
  unfold tr_new, file. cbn [flat_map render app]. rewrite <- app_assoc. cbn [app].
  eapply tr_replies_eq; [|pose proof (tr_body norm body1 close1 _ i _ Hb1 Ht1 Hc1 R2 []) as X; rewrite Hz1 in X; exact X].
  unfold tr_next. cbn [tr_id tr_tags tr_items next_tag]. apply local_is_eq in Hn1. rewrite Hn1.
  rewrite take_id_spec by (try assumption; congruence). rewrite Hi1. unfold file. cbn [flat_map render app].
  reflexivity.
Qed.
Print Assumptions C50_bad_id_refuted.

Definition ex_bad : list part :=
  [CFull (lit "changeset") [at_ "id" "10"] [ex_tag "a" "1"; QEmpty (lit "tag") [at_ "k" "x"]; ex_tag "b" "2"] (lit "changeset");
   CFull (lit "changeset") [at_ "uid" "11"] [ex_tag "c" "3"] (lit "changeset")].
Example C50_ex : tr_part ex_norm (nth 0 ex_bad (Noise QOther)) /\ ~ tr_part ex_norm (nth 1 ex_bad (Noise QOther))
  /\ tr_value ex_norm (nth 0 ex_bad (Noise QOther)) = [Error; Item (10, [(lit "a", lit "1"); (lit "b", lit "2")])]
  /\ tr_next ex_norm (TR (Some 10) [] (file (skipn 1 ex_bad))) = (Item (10, [(lit "c", lit "3")]), TR (Some 10) [] []).
Proof.
  split; [split; [intros Hx; cbn in Hx; destruct Hx as [Hx|[]]; discriminate Hx|discriminate]|].
  split; [intros [_ H]; apply H; reflexivity|]. split; reflexivity.
Qed.

(** ** C69 *)

(** Both readers: once the end has been reported, every later call reports it, too. *)
Theorem C69_changesets : forall norm,
  (forall s s', cs_step norm s End s' -> cs_step norm s' End s' /\ forall r s'', cs_step norm s' r s'' -> r = End /\ s'' = s') /\
  (forall s s', tr_step norm s End s' -> tr_step norm s' End s' /\ forall r s'', tr_step norm s' r s'' -> r = End /\ s'' = s').
Proof.
  intros norm. split.
  - intros s s' (f & H). assert (E : s' = []).
    { revert s H. induction f as [|f IH]; intros s H; [discriminate|]. cbn [next_changeset] in H.
      destruct s as [|[e|] s]; [now injection H as <-| |discriminate]. destruct e as [n a|n a|n|]; try (apply (IH _ H)).
      - destruct (local_is n "changeset"); [|apply (IH _ H)]. destruct (take_attrs norm builder0 a) as [b|]; [|discriminate].
        destruct (tags_loop norm f [] s) as [|[[t|] r']]; try discriminate. unfold built in H. destruct (build b t); discriminate.
      - destruct (local_is n "changeset"); [|apply (IH _ H)]. destruct (take_attrs norm builder0 a) as [b|]; [|discriminate].
        unfold built in H. destruct (build b []); discriminate. }
    subst s'. split; [now exists 1%nat|]. intros r s'' (f' & H'). destruct f' as [|f']; [discriminate|]. cbn in H'. now injection H' as <- <-.
  - intros s s' H. assert (E : tr_items s' = []).
    { unfold tr_step, tr_next in H. destruct s as [cur t l]. cbn [tr_id tr_tags tr_items] in H.
      revert cur t H. induction l as [|[e|] l IH]; intros cur t H; cbn [next_tag] in H; [now injection H as <-| |discriminate].
      destruct e as [n a|n a|n|]; try (apply (IH _ _ H)).
      - destruct (local_is n "changeset").
        + destruct (take_id norm cur a) as [c [|]]; [apply (IH _ _ H)|discriminate].
        + destruct (local_is n "tag"); [|apply (IH _ _ H)]. destruct (read_tag norm a); [apply (IH _ _ H)|discriminate].
      - destruct (local_is n "tag"); [|apply (IH _ _ H)]. destruct (read_tag norm a); [apply (IH _ _ H)|discriminate].
      - destruct (local_is n "changeset"); [|apply (IH _ _ H)]. destruct cur; discriminate. }
    destruct s' as [c t l]. cbn [tr_items] in E. subst l. unfold tr_step, tr_next. cbn [tr_id tr_tags tr_items next_tag].
    split; [reflexivity|]. intros r s'' H'. now injection H' as <- <-.
Qed.
Print Assumptions C69_changesets.
Example C69_changesets_example : forall norm,
  cs_step norm [QEv QOther] End [] /\ tr_step norm (tr_new [QEv QOther]) End (TR None [] []).
Proof. intros norm. split; [now exists 2%nat|reflexivity]. Qed.
