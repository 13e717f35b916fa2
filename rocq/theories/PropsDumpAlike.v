(** C124: changeset dumps that say the same in another order or with additions. *)
From Coq Require Import String ZArith List Bool Lia Permutation.
From Verif Require Import Base Utf8 Timestamp Obj ObjFacts SpecJson XmlToken Changesets QuickXml SpecDump SpecChangeset SpecDumpText
  PropsChangeset PropsDump.
From Verif Require PropsJson.
Import ListNotations.
Open Scope Z_scope.

(** ** Specification *)

(** The attributes of changesets and tags. *)
Definition known_names : list str :=
  map lit ["id"; "created_at"; "closed_at"; "open"; "user"; "uid"; "num_changes"; "comments_count"; "k"; "v"]%string.
Definition known_attr (a : qattr) : option (str * str) :=
  match a with
  | AOk key raw => if in_dec str_eq_dec (local_part key) known_names then Some (local_part key, raw) else None
  | AErr => None
  end.

(** The same known attributes, in any order and with any prefixes; other attributes do not matter. *)
Definition same_attrs (l l' : list qattr) : Prop :=
  proper l /\ proper l' /\ distinct l /\ distinct l' /\ Permutation (filter_map known_attr l) (filter_map known_attr l').

(** The same tag elements; in another order if no key is repeated. *)
Definition same_tags (body body' : list qevent) : Prop :=
  exists ts, Permutation (tag_elements body) ts /\ Forall2 same_attrs ts (tag_elements body')
    /\ (ts = tag_elements body \/ forall t, sequence (map (tag_value q_norm) ts) = Some t -> NoDup (map fst t)).

(** The changeset elements of a file, with their content. *)
Definition content (p : part) : option (list qattr * list qevent) :=
  match p with Noise _ => None | CEmpty _ a => Some (a, []) | CFull _ a body _ => Some (a, body) end.
Definition says_same (ps ps' : list part) : Prop :=
  Forall2 (fun x y => same_attrs (fst x) (fst y) /\ same_tags (snd x) (snd y)) (filter_map content ps) (filter_map content ps').

(** The same reply: changesets with the same fields and tags. *)
Definition same_reply (r r' : reply changeset) : Prop :=
  match r, r' with
  | Item c, Item c' =>
      cs_id c = cs_id c' /\ cs_created c = cs_created c' /\ cs_closed c = cs_closed c' /\ cs_open c = cs_open c'
      /\ cs_uid c = cs_uid c' /\ cs_user c = cs_user c' /\ cs_num_changes c = cs_num_changes c'
      /\ cs_comments_count c = cs_comments_count c' /\ forall k, cs_tag c k = cs_tag c' k
  | Error, Error => True
  | _, _ => False
  end.

(** ** Proof *)

Lemma raw_in l k r : distinct l -> In (lit k) known_names -> (raw_attr l k = Some r <-> In (lit k, r) (filter_map known_attr l)).
Proof.
  intros D K. induction l as [|[|key raw] l IH]; cbn [raw_attr filter_map known_attr]; [split; [discriminate|intros []]| |].
  - apply IH. exact D.
  - unfold distinct, local_names in D. cbn [filter_map] in D. inversion D as [|? ? D1 D2]; subst. specialize (IH D2).
    destruct (str_eq_dec (local_part key) (lit k)) as [E|E].
    + rewrite E in *. destruct (in_dec str_eq_dec (lit k) known_names) as [_|X]; [|contradiction]. split.
      * intros [= ->]. now left.
      * intros [[= ->]|H]; [reflexivity|]. exfalso. apply D1. clear -H. induction l as [|[|q w] l IHl]; cbn [filter_map known_attr] in *; [destruct H|now apply IHl|].
        destruct (in_dec str_eq_dec (local_part q) known_names); [|right; now apply IHl]. destruct H as [[= E _]|H]; [left; exact E|right; now apply IHl].
    + rewrite IH. destruct (in_dec str_eq_dec (local_part key) known_names); [|reflexivity]. split; [now right|]. intros [[= X _]|H]; [contradiction|exact H].
Qed.
Lemma same_raw l l' k : same_attrs l l' -> In (lit k) known_names -> raw_attr l k = raw_attr l' k.
Proof.
  intros (_ & _ & D & D' & P) K. destruct (raw_attr l k) as [r|] eqn:E.
  - symmetry. apply raw_in; [exact D'|exact K|]. eapply Permutation_in; [exact P|]. now apply raw_in.
  - destruct (raw_attr l' k) as [r|] eqn:E'; [|reflexivity]. apply raw_in in E'; [|exact D'|exact K].
    apply (Permutation_in _ (Permutation_sym P)) in E'. apply raw_in in E'; [congruence|exact D|exact K].
Qed.
Lemma proper_errs l : proper l -> existsb (fun a => match a with AErr => true | _ => false end) l = false.
Proof.
  unfold proper. intros H. destruct (existsb _ l) eqn:E; [|reflexivity]. apply existsb_exists in E as ([|] & I & E); [now elim H|discriminate].
Qed.
Ltac known_name := cbn; repeat (first [left; reflexivity | right]).
Lemma same_tag_value l l' : same_attrs l l' -> tag_value q_norm l = tag_value q_norm l'.
Proof.
  intros H. unfold tag_value. rewrite (same_raw l l' "k" H), (same_raw l l' "v" H) by known_name.
  rewrite !proper_errs by apply H. reflexivity.
Qed.
Lemma same_tag_values ts ts' : Forall2 same_attrs ts ts' -> map (tag_value q_norm) ts = map (tag_value q_norm) ts'.
Proof. induction 1 as [|a b l l' H _ IH]; [reflexivity|]. cbn [map]. now rewrite IH, (same_tag_value a b H). Qed.

Lemma sequence_perm {A} (l l' : list (option A)) : Permutation l l' ->
  match sequence l, sequence l' with Some t, Some t' => Permutation t t' | None, None => True | _, _ => False end.
Proof.
  assert (S : forall (l : list (option A)) t, sequence l = Some t <-> l = map Some t).
  { induction l0 as [|[a|] l0 IH]; intros t; cbn [sequence].
    - split; [now intros [= <-]|]. destruct t; [reflexivity|discriminate].
    - destruct (sequence l0) as [t0|]; cbn [opt_map].
      + split; [intros [= <-]; cbn; f_equal; now apply IH|]. destruct t as [|b t]; [discriminate|]. intros [= -> E]. f_equal. f_equal. apply IH in E. congruence.
      + split; [discriminate|]. destruct t as [|b t]; [discriminate|]. intros [= -> E]. apply IH in E. discriminate.
    - split; [discriminate|]. destruct t; discriminate. }
  intros P. destruct (sequence l) as [t|] eqn:E.
  - apply S in E. subst l. destruct (Permutation_map_inv _ _ (Permutation_sym P)) as (t' & -> & P').
    assert (E : sequence (map Some t') = Some t') by now apply S. rewrite E. exact P'.
  - destruct (sequence l') as [t'|] eqn:E'; [|exact I]. apply S in E'. subst l'.
    destruct (Permutation_map_inv _ _ P) as (t & -> & _). assert (X : sequence (map Some t) = Some t) by now apply S. congruence.
Qed.

(** Two lists of tags with the same meaning. *)
Lemma same_tags_values body body' : same_tags body body' ->
  match sequence (map (tag_value q_norm) (tag_elements body)), sequence (map (tag_value q_norm) (tag_elements body')) with
  | Some t, Some t' => forall k, last_value t k = last_value t' k
  | None, None => True
  | _, _ => False
  end.
Proof.
  intros (ts & P & F & O). rewrite <- (same_tag_values _ _ F). destruct O as [->|N].
  - destruct (sequence _); [reflexivity|exact I].
  - pose proof (sequence_perm _ _ (Permutation_map (tag_value q_norm) P)) as S.
    destruct (sequence (map (tag_value q_norm) (tag_elements body))) as [t|]; destruct (sequence (map (tag_value q_norm) ts)) as [t'|] eqn:E'; try exact S.
    specialize (N t' eq_refl). intros k.
    assert (N' : NoDup (map fst t)) by (eapply Permutation_NoDup; [apply Permutation_map, Permutation_sym, S|exact N]).
    rewrite !PropsJson.last_value_get by assumption.
    destruct (tags_get k t) as [v|] eqn:G.
    + symmetry. apply tags_get_unique; [exact N|]. eapply Permutation_in; [exact S|]. now apply tags_get_unique.
    + destruct (tags_get k t') as [v|] eqn:G'; [|reflexivity]. apply tags_get_unique in G'; [|exact N].
      apply (Permutation_in _ (Permutation_sym S)) in G'. apply tags_get_unique in G'; [congruence|exact N'].
Qed.

Lemma same_value a a' body body' r r' : same_attrs a a' -> same_tags body body' ->
  replies (changeset_value q_norm a body) r -> replies (changeset_value q_norm a' body') r' -> same_reply r r'.
Proof.
  intros HA HT. pose proof (same_tags_values _ _ HT) as T. unfold changeset_value. rewrite !proper_errs by apply HA.
  rewrite (same_raw a a' "id" HA), (same_raw a a' "created_at" HA), (same_raw a a' "closed_at" HA), (same_raw a a' "open" HA), (same_raw a a' "uid" HA),
    (same_raw a a' "user" HA), (same_raw a a' "num_changes" HA), (same_raw a a' "comments_count" HA) by known_name.
  repeat match goal with |- context [match ?x with Some _ => _ | None => _ end] =>
    lazymatch x with sequence _ => fail | _ => destruct x; [|destruct r, r'; cbn; tauto] end end.
  destruct (sequence (map (tag_value q_norm) (tag_elements body))) as [t|], (sequence (map (tag_value q_norm) (tag_elements body'))) as [t'|];
    try contradiction; [|destruct r, r'; cbn; tauto].
  destruct r as [c| |], r' as [c'| |]; cbn [replies]; try easy. unfold as_map. cbn.
  intros (A1 & A2 & A3 & A4 & A5 & A6 & A7 & A8 & A9 & _) (B1 & B2 & B3 & B4 & B5 & B6 & B7 & B8 & B9 & _). cbn [same_reply].
  repeat (split; [congruence|]). intros k. rewrite A9, B9. apply T.
Qed.
Lemma file_value_content ps : file_value q_norm ps = map (fun x => changeset_value q_norm (fst x) (snd x)) (filter_map content ps).
Proof. unfold file_value. induction ps as [|[e|n a|n a b c] ps IH]; cbn [filter_map part_value content map fst snd]; now rewrite ?IH. Qed.

(** ** C124 *)

Theorem C124_alike : forall ps ps' b b' rs, Forall wf_part ps -> Forall wf_part ps' ->
  text_of (events ps) b -> text_of (events ps') b' -> says_same ps ps' ->
  Replies (cs_step q_norm) (q_items b) rs ->
  exists rs', Replies (cs_step q_norm) (q_items b') rs' /\ Forall2 same_reply rs rs'.
Proof.
  intros ps ps' b b' rs W W' T T' S R. destruct (C108_text ps b W T) as (rs0 & _ & V & U). rewrite (U rs R) in *. clear R U.
  destruct (C108_text ps' b' W' T') as (rs' & R' & V' & _). exists rs'. split; [exact R'|].
  rewrite file_value_content in V, V'. unfold says_same in S. clear W W' T T' R'. revert rs0 rs' V V'. clear -S.
  induction S as [|x y l l' [HA HT] _ IH]; intros rs rs' V V'; cbn [map] in *; inversion V; inversion V'; subst; constructor.
  - eapply same_value; eassumption.
  - now apply IH.
Qed.
Print Assumptions C124_alike.

(** The tag reader: the changesets that are not empty elements, with their tags in order. *)
Definition full_content (p : part) : option (list qattr * list qevent) :=
  match p with CFull _ a body _ => Some (a, body) | _ => None end.
Theorem C124_tag_reader : forall ps ps' b b' rs, Forall wf_part ps -> Forall wf_part ps' ->
  text_of (events ps) b -> text_of (events ps') b' ->
  Forall (fun p => match p with Noise e => not_about "tag" e | _ => True end) (ps ++ ps') ->
  Forall (fun d => d <> None) (file_value q_norm (ps ++ ps')) ->
  Forall2 (fun x y => same_attrs (fst x) (fst y) /\ Forall2 same_attrs (tag_elements (snd x)) (tag_elements (snd y)))
    (filter_map full_content ps) (filter_map full_content ps') ->
  Replies (tr_step q_norm) (tr_new (q_items b)) rs -> Replies (tr_step q_norm) (tr_new (q_items b')) rs.
Proof.
  intros ps ps' b b' rs W W' T T' N V S R. apply Forall_app in N as [N N'].
  assert (V2 : Forall (fun d => d <> None) (file_value q_norm ps) /\ Forall (fun d => d <> None) (file_value q_norm ps')).
  { unfold file_value in *. rewrite filter_map_app in V. now apply Forall_app in V. }
  destruct V2 as [V1 V1']. pose proof (C108_tag_reader ps b W T N V1) as A. pose proof (C108_tag_reader ps' b' W' T' N' V1') as A'.
  assert (D : rs = map (fun d => Item (cs_id d, cs_tags d)) (full_values q_norm ps)).
  { clear -R A. revert A. generalize (map (fun d => @Item (Z * tags) (cs_id d, cs_tags d)) (full_values q_norm ps)).
    induction R as [s s' H|s a s' l H _ IH|s s' l H _ IH]; intros l' A; inversion A as [? ? H'|? ? ? ? H' R'|? ? ? H' R']; subst; unfold tr_step in *; try congruence;
      rewrite H in H'; injection H' as <-; try subst; try (injection H' as <- <-); f_equal; now apply IH. }
  rewrite D. clear D R A. enough (E : full_values q_norm ps = full_values q_norm ps') by now rewrite E.
  assert (G : forall ps, full_values q_norm ps = filter_map (fun x => changeset_value q_norm (fst x) (snd x)) (filter_map full_content ps)).
  { induction ps0 as [|[e|n a|n a bd c] ps0 IH]; unfold full_values in *; cbn [filter_map full_content fst snd]; [reflexivity|exact IH|exact IH|].
    now rewrite IH. }
  rewrite !G. clear -S. induction S as [|[a body] [a' body'] l l' [HA HT] _ IH]; [reflexivity|]. cbn [filter_map fst snd] in *. rewrite IH.
  replace (changeset_value q_norm a' body') with (changeset_value q_norm a body); [reflexivity|].
  unfold changeset_value. rewrite !proper_errs by apply HA.
  rewrite (same_raw a a' "id" HA), (same_raw a a' "created_at" HA), (same_raw a a' "closed_at" HA), (same_raw a a' "open" HA), (same_raw a a' "uid" HA),
    (same_raw a a' "user" HA), (same_raw a a' "num_changes" HA), (same_raw a a' "comments_count" HA), (same_tag_values _ _ HT) by known_name.
  reflexivity.
Qed.
Print Assumptions C124_tag_reader.

(** ** An example: other order of attributes and tags, a prefix, an unknown
    attribute, a comment, white space. *)
Definition ex_quote (x : bytes * bytes) : bytes := [32] ++ fst x ++ [] ++ [61] ++ [] ++ [34] ++ snd x ++ [34].
Definition nameb (n : bytes) : bool :=
  match n with [] => false | _ => true end && forallb (fun b => negb (existsb (Z.eqb b) [32; 9; 10; 13; 33; 34; 38; 39; 47; 60; 61; 62; 63])) n.
Definition attrb (x : bytes * bytes) : bool := nameb (fst x) && negb (existsb (Z.eqb 34) (snd x)) && negb (existsb (Z.eqb 60) (snd x)).
Lemma nameb_ok n : nameb n = true -> good_name n.
Proof.
  intros H. apply andb_true_iff in H as [H1 H2]. split; [destruct n; discriminate|].
  rewrite forallb_forall in H2. apply Forall_forall. intros b I. specialize (H2 b I). apply negb_true_iff in H2.
  intros S. rewrite <- not_true_iff_false in H2. apply H2. apply existsb_exists. exists b. split; [|apply Z.eqb_refl].
  destruct S as [S|S]; unfold white in *; cbn [In] in *; intuition.
Qed.
Lemma notin_b (c : Z) v : negb (existsb (Z.eqb c) v) = true -> ~ In c v.
Proof.
  intros H I. apply negb_true_iff in H. rewrite <- not_true_iff_false in H. apply H. apply existsb_exists. exists c. split; [exact I|apply Z.eqb_refl].
Qed.
Lemma attrs_ok l : forallb attrb l = true -> attributes l (flat_map ex_quote l).
Proof.
  induction l as [|[k v] l IH]; intros H; [constructor|]. cbn [forallb] in H. apply andb_true_iff in H as [H HL]. unfold attrb in H. cbn [fst snd] in H.
  apply andb_true_iff in H as [H H3]. apply andb_true_iff in H as [H1 H2]. cbn [flat_map]. unfold ex_quote at 1. cbn [fst snd]. rewrite <- !app_assoc.
  apply an_attribute; [discriminate|repeat constructor|now apply nameb_ok|constructor|constructor|now left|now apply notin_b|now apply notin_b|now apply IH].
Qed.

Definition pairs (l : list (string * string)) : list (bytes * bytes) := map (fun x => (lit (fst x), lit (snd x))) l.
Definition ex_start n l : piece := Piece [] (QStart (lit n) (map as_attr (pairs l))) (lit "<" ++ lit n ++ flat_map ex_quote (pairs l) ++ [] ++ lit ">").
Definition ex_empty n l : piece := Piece [] (QEmpty (lit n) (map as_attr (pairs l))) (lit "<" ++ lit n ++ flat_map ex_quote (pairs l) ++ [] ++ lit "/>").
Definition ex_end n : piece := Piece [10] (QEnd (lit n)) (lit "</" ++ lit n ++ [] ++ lit ">").
Definition ex_comment : piece := Piece [] QOther (lit "<!--" ++ lit "x" ++ lit "-->").

Definition ex_attrs := [("id", "7"); ("created_at", "2020-01-01T00:00:00Z"); ("open", "true"); ("num_changes", "5"); ("comments_count", "0")]%string.
Definition ex_attrs' := [("comments_count", "0"); ("open", "true"); ("min_lat", "1.5"); ("x:id", "7"); ("num_changes", "5"); ("created_at", "2020-01-01T00:00:00Z")]%string.
Definition ex_pieces : list piece :=
  [ex_start "osm" []; ex_start "changeset" ex_attrs; ex_empty "tag" [("k", "a"); ("v", "b")]; ex_empty "tag" [("k", "c"); ("v", "d")];
   ex_end "changeset"; ex_end "osm"]%string.
Definition ex_pieces' : list piece :=
  [ex_start "osm" [("version", "0.6")]; ex_comment; ex_start "changeset" ex_attrs'; ex_empty "tag" [("v", "d"); ("k", "c")]; ex_comment;
   ex_empty "x" []; ex_empty "tag" [("k", "a"); ("v", "b"); ("w", "")]; ex_end "changeset"; ex_end "osm"]%string.
Definition qattrs l : list qattr := map as_attr (pairs l).
Definition ex_parts : list part :=
  [Noise (QStart (lit "osm") []);
   CFull (lit "changeset") (qattrs ex_attrs) [QEmpty (lit "tag") (qattrs [("k", "a"); ("v", "b")]); QEmpty (lit "tag") (qattrs [("k", "c"); ("v", "d")]); QOther] (lit "changeset");
   Noise QOther; Noise (QEnd (lit "osm"))]%string.
Definition ex_parts' : list part :=
  [Noise (QStart (lit "osm") (qattrs [("version", "0.6")])); Noise QOther;
   CFull (lit "changeset") (qattrs ex_attrs') [QEmpty (lit "tag") (qattrs [("v", "d"); ("k", "c")]); QOther; QEmpty (lit "x") [];
     QEmpty (lit "tag") (qattrs [("k", "a"); ("v", "b"); ("w", "")]); QOther] (lit "changeset");
   Noise QOther; Noise (QEnd (lit "osm"))]%string.
Definition ex_bytes (xs : list piece) : bytes := flat_map piece_bytes xs.

Ltac no_dup := repeat (constructor; [cbn; intros X; repeat (destruct X as [X|X]; [discriminate X|]); exact X|]); constructor.
Lemma start_ok n l : nameb (lit n) = true -> forallb attrb (pairs l) = true -> NoDup (map fst (pairs l)) -> good_piece (ex_start n l).
Proof. intros A B C. split; [split; intros []|]. apply m_start; [now apply nameb_ok|now apply attrs_ok|exact C|constructor]. Qed.
Lemma empty_ok n l : nameb (lit n) = true -> forallb attrb (pairs l) = true -> NoDup (map fst (pairs l)) -> good_piece (ex_empty n l).
Proof. intros A B C. split; [split; intros []|]. apply m_empty; [now apply nameb_ok|now apply attrs_ok|exact C|constructor]. Qed.
Lemma end_ok n : nameb (lit n) = true -> good_piece (ex_end n).
Proof. intros A. split; [split; intros [X|[]]; discriminate|]. apply m_end; [now apply nameb_ok|constructor]. Qed.
Lemma comment_ok : good_piece ex_comment.
Proof.
  split; [split; intros []|]. apply m_comment. intros a b E. cbn in E.
  destruct a as [|a0 a]; [cbn in E; discriminate E|]. destruct a as [|a1 a]; [cbn in E; now injection E as _ <-|].
  cbn in E. injection E as _ _ E. destruct a as [|a2 a]; cbn in E; [discriminate E|]. injection E as _ E. destruct a; cbn in E; [discriminate E|].
  injection E as _ E. destruct a; discriminate E.
Qed.
Lemma ex_text : text_of (events ex_parts) (ex_bytes ex_pieces).
Proof.
  exists ex_pieces, []. split; [|split; [split; intros []|split; [now rewrite app_nil_r|split; [reflexivity|vm_compute; discriminate]]]].
  unfold ex_pieces. repeat apply Forall_cons; try apply Forall_nil; first [apply start_ok|apply empty_ok|apply end_ok]; try reflexivity; no_dup.
Qed.
Lemma ex_text' : text_of (events ex_parts') (ex_bytes ex_pieces').
Proof.
  exists ex_pieces', []. split; [|split; [split; intros []|split; [now rewrite app_nil_r|split; [reflexivity|vm_compute; discriminate]]]].
  unfold ex_pieces'. repeat apply Forall_cons; try apply Forall_nil; first [apply start_ok|apply empty_ok|apply end_ok|apply comment_ok]; try reflexivity; no_dup.
Qed.

Ltac are_same := split; [intros X; cbn in X; repeat (destruct X as [X|X]; [discriminate X|]); exact X|
  split; [intros X; cbn in X; repeat (destruct X as [X|X]; [discriminate X|]); exact X|
  split; [unfold distinct; no_dup|split; [unfold distinct; no_dup|]]]].
Lemma ex_perm {A} (a b c d e : A) : Permutation [a; b; c; d; e] [e; c; a; d; b].
Proof.
  apply (Permutation_cons_app [e; c] [d; b]). apply (Permutation_cons_app [e; c; d] []). apply (Permutation_cons_app [e] [d]).
  apply (Permutation_cons_app [e] []). reflexivity.
Qed.
Example C124_ex : Forall wf_part ex_parts /\ Forall wf_part ex_parts'
  /\ text_of (events ex_parts) (ex_bytes ex_pieces) /\ text_of (events ex_parts') (ex_bytes ex_pieces')
  /\ says_same ex_parts ex_parts'
  /\ exists rest, next_changeset q_norm 100 (q_items (ex_bytes ex_pieces')) =
       Done (Item (CS 7 (ISOString (lit "2020-01-01T00:00:00Z")) None true None None [(lit "c", lit "d"); (lit "a", lit "b")] 5 0), rest).
Proof.
  split; [|split; [|split; [exact ex_text|split; [exact ex_text'|split; [|eexists; vm_compute; reflexivity]]]]].
  - unfold ex_parts. repeat apply Forall_cons; try apply Forall_nil; cbn [wf_part not_about]; try discriminate; try exact I.
    split; [reflexivity|split; [reflexivity|split; [unfold distinct; no_dup|split]]].
    + repeat constructor; cbn [not_about]; discriminate.
    + unfold tag_distinct. cbn [tag_elements filter_map]. repeat apply Forall_cons; try apply Forall_nil; unfold distinct; no_dup.
  - unfold ex_parts'. repeat apply Forall_cons; try apply Forall_nil; cbn [wf_part not_about]; try discriminate; try exact I.
    split; [reflexivity|split; [reflexivity|split; [unfold distinct; no_dup|split]]].
    + repeat constructor; cbn [not_about]; discriminate.
    + unfold tag_distinct. cbn [tag_elements filter_map]. repeat apply Forall_cons; try apply Forall_nil; unfold distinct; no_dup.
  - unfold says_same. constructor; [|constructor]. cbn [fst snd]. split.
    + are_same. vm_compute. apply ex_perm.
    + eexists. split; [vm_compute; apply perm_swap|]. split; [|right; intros t E; vm_compute in E; injection E as <-; no_dup].
      constructor; [|constructor; [|constructor]]; are_same; vm_compute; [apply perm_swap|reflexivity].
Qed.
