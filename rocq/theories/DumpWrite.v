(** A dump of changesets is a text of their elements. *)
From Coq Require Import String ZArith List Bool Lia.
From Coq Require Import ZifyBool ZifyNat.
From Verif Require Import Base SpecNum Ints Utf8 Timestamp Obj SpecJson XmlToken Changesets QuickXml SpecXmlRef SpecDump DumpFacts DumpValue
  SpecChangeset SpecDumpText.
Import ListNotations.
Open Scope Z_scope.

(** ** UTF-8 *)

Lemma utf8_ascii_char c : 0 <= c < 128 -> utf8_char c = [c].
Proof. intros H. unfold utf8_char. now replace (c <? 128) with true by lia. Qed.
Lemma utf8_ascii s : Forall (fun c => 0 <= c < 128) s -> utf8 s = s.
Proof.
  induction 1 as [|c s Hc _ IH]; [reflexivity|]. change (c :: s) with ([c] ++ s) at 1. rewrite utf8_app, IH.
  cbn. rewrite utf8_ascii_char by exact Hc. reflexivity.
Qed.
Lemma utf8_lit (k : string) : forallb (fun c => (0 <=? c) && (c <? 128)) (lit k) = true -> utf8 (lit k) = lit k.
Proof. intros H. apply utf8_ascii. apply Forall_forall. intros c Hc. rewrite forallb_forall in H. apply H in Hc. lia. Qed.

Lemma utf8_char_in a c : scalar c -> 0 <= a < 128 -> In a (utf8_char c) -> c = a.
Proof.
  unfold scalar, utf8_char. intros Hs Ha. pose proof (Z.mod_pos_bound c 64).
  repeat match goal with |- context [if ?b then _ else _] => destruct b eqn:? end; cbn [In]; intros Hi;
    decompose [or] Hi; subst; try contradiction; try lia;
    exfalso; repeat match goal with
    | H : context [?x / ?y] |- _ => assert (0 <= x / y) by (apply Z.div_pos; lia); generalize dependent (x / y); intros
    | H : context [?x mod ?y] |- _ => pose proof (Z.mod_pos_bound x y ltac:(lia)); generalize dependent (x mod y); intros
    end; lia.
Qed.
Lemma utf8_in a s : valid_str s -> 0 <= a < 128 -> In a (utf8 s) -> In a s.
Proof.
  intros Hv Ha. unfold utf8. rewrite in_flat_map. intros (c & Hc & Hi).
  unfold valid_str in Hv. rewrite Forall_forall in Hv. apply utf8_char_in in Hi; [now subst|auto|exact Ha].
Qed.

(** ** Values *)

Lemma show_int_valid n : valid_str (show_int n).
Proof. eapply Forall_impl; [|apply show_int_chars]. unfold is_digit, scalar. intros a. cbn. lia. Qed.

Lemma quoted_char c : scalar c ->
  valid_str (if in_dec Z.eq_dec c awkward then lit "&#" ++ show_int c ++ lit ";" else [c]).
Proof.
  intros Hc. destruct (in_dec Z.eq_dec c awkward) as [H|H].
  - apply Forall_app. split; [repeat constructor; unfold scalar; lia|]. apply Forall_app.
    split; [apply show_int_valid|repeat constructor; unfold scalar; lia].
  - constructor; [exact Hc|constructor].
Qed.
Lemma quoted_valid s : valid_str s -> valid_str (quoted s).
Proof.
  unfold quoted. induction 1 as [|c s Hc _ IH]; [constructor|]. cbn [flat_map]. apply Forall_app.
  split; [now apply quoted_char|exact IH].
Qed.

Lemma quoted_not a s : In a awkward -> a <> 38 -> ~ In a (quoted s).
Proof.
  intros Ha N H. unfold quoted in H. apply in_flat_map in H as (c & _ & H).
  destruct (in_dec Z.eq_dec c awkward) as [Hc|Hc].
  - apply in_app_or in H as [H|H].
    + unfold awkward in Ha. cbn in Ha, H. lia.
    + apply in_app_or in H as [H|H].
      * pose proof (show_int_chars c) as F. rewrite Forall_forall in F. apply F in H. unfold is_digit in H.
        unfold awkward in Ha. cbn in Ha. lia.
      * unfold awkward in Ha. cbn in Ha, H. lia.
  - destruct H as [->|[]]. contradiction.
Qed.

Lemma quoted_spelled s : spelled (quoted s) s.
Proof.
  induction s as [|c s IH]; [constructor|]. unfold quoted in *. cbn [flat_map].
  destruct (in_dec Z.eq_dec c awkward) as [Hc|Hc].
  - replace ((lit "&#" ++ show_int c ++ lit ";") ++ flat_map (fun c => if in_dec Z.eq_dec c awkward then lit "&#" ++ show_int c ++ lit ";" else [c]) s)
      with (lit "&" ++ (lit "#" ++ show_int c) ++ lit ";" ++ flat_map (fun c => if in_dec Z.eq_dec c awkward then lit "&#" ++ show_int c ++ lit ";" else [c]) s)
      by (rewrite <- !app_assoc; reflexivity).
    unfold awkward in Hc. cbn in Hc. apply sp_ref; [|exact IH]. unfold refers. do 5 right. split; [unfold legal; lia|].
    exists (show_int c). left. split; [reflexivity|]. apply numeral_show. lia.
  - cbn [app]. destruct (Z.eq_dec c 32) as [->|N].
    + apply sp_white; [unfold white; cbn; tauto|discriminate|exact IH].
    + apply sp_char; [| |exact IH].
      * unfold white, awkward in *. cbn in *. lia.
      * intros ->. apply Hc. unfold awkward. cbn. tauto.
Qed.

Lemma quoted_norm s : valid_str s -> q_norm (utf8 (quoted s)) = Some s.
Proof. intros H. apply norm_spelled; [now apply quoted_valid|apply quoted_spelled]. Qed.

(** ** Attributes *)

Definition good_key (k : string) : Prop :=
  forallb (fun c => ((97 <=? c) && (c <=? 122)) || (c =? 95)) (lit k) = true /\ lit k <> [].
Lemma good_key_name k : good_key k -> good_name (lit k).
Proof.
  intros [H1 H2]. split; [exact H2|]. apply Forall_forall. intros c Hc. rewrite forallb_forall in H1. apply H1 in Hc.
  unfold special, white. cbn. lia.
Qed.
Lemma good_key_utf8 k : good_key k -> utf8 (lit k) = lit k.
Proof.
  intros [H _]. apply utf8_lit. rewrite forallb_forall in *. intros c Hc. apply H in Hc. lia.
Qed.

Definition raw_of (kv : string * str) : bytes * bytes := (lit (fst kv), utf8 (quoted (snd kv))).

Lemma attrs_text l : Forall (fun kv => good_key (fst kv) /\ valid_str (snd kv)) l ->
  attributes (map raw_of l) (utf8 (flat_map attr_text l)).
Proof.
  induction 1 as [|[k v] l [Hk Hv] _ IH]; [constructor|]. cbn [map flat_map]. unfold attr_text, raw_of in *. cbn [fst snd] in *.
  rewrite !utf8_app, (good_key_utf8 k Hk).
  replace (((utf8 (lit " ") ++ lit k ++ utf8 (lit "=") ++ utf8 [34] ++ utf8 (quoted v) ++ utf8 [34])
     ++ utf8 (flat_map (fun kv => lit " " ++ lit (fst kv) ++ lit "=" ++ [34] ++ quoted (snd kv) ++ [34]) l)))
    with ([32] ++ lit k ++ [] ++ [61] ++ [] ++ [34] ++ utf8 (quoted v) ++ [34]
     ++ utf8 (flat_map (fun kv => lit " " ++ lit (fst kv) ++ lit "=" ++ [34] ++ quoted (snd kv) ++ [34]) l))
    by (rewrite <- !app_assoc; reflexivity).
  apply an_attribute; [discriminate|repeat constructor|now apply good_key_name|constructor|constructor|now left| | |exact IH].
  - intros H. apply utf8_in in H; [|now apply quoted_valid|lia]. revert H. apply quoted_not; [unfold awkward; cbn; tauto|lia].
  - intros H. apply utf8_in in H; [|now apply quoted_valid|lia]. revert H. apply quoted_not; [unfold awkward; cbn; tauto|lia].
Qed.

Definition attrs_of (l : list (string * str)) : list qattr := map as_attr (map raw_of l).

(** ** Elements *)

Ltac good_lit := split; [discriminate|]; repeat constructor; unfold special, white; cbn; lia.

Definition tag_attrs_of (kv : str * str) : list (string * str) := [("k"%string, fst kv); ("v"%string, snd kv)].
Definition tag_event (kv : str * str) : qevent := QEmpty (lit "tag") (attrs_of (tag_attrs_of kv)).
Definition tag_piece (kv : str * str) : piece := Piece [] (tag_event kv) (utf8 (tag_text kv)).

Lemma tag_piece_good kv : valid_str (fst kv) -> valid_str (snd kv) -> good_piece (tag_piece kv).
Proof.
  intros H1 H2. split; [split; exact (fun H => H)|]. cbn [pc_event pc_markup tag_piece]. unfold tag_event, tag_text, attrs_of.
  replace (utf8 (lit "<tag" ++ attr_text ("k"%string, fst kv) ++ attr_text ("v"%string, snd kv) ++ lit "/>"))
    with (lit "<" ++ lit "tag" ++ utf8 (flat_map attr_text (tag_attrs_of kv)) ++ [] ++ lit "/>").
  2:{ cbn [flat_map tag_attrs_of]. rewrite app_nil_r, !utf8_app, <- !app_assoc. reflexivity. }
  apply m_empty; [good_lit|apply attrs_text| |constructor].
  - constructor; [split; [split; [reflexivity|discriminate]|exact H1]|].
    constructor; [split; [split; [reflexivity|discriminate]|exact H2]|constructor].
  - cbn. constructor; [intros [H|[]]; discriminate H|]. constructor; [intros []|constructor].
Qed.

Lemma tag_event_value kv : valid_str (fst kv) -> valid_str (snd kv) ->
  tag_value q_norm (attrs_of (tag_attrs_of kv)) = Some kv.
Proof.
  intros H1 H2. destruct kv as [k v]. unfold tag_value, attrs_of, tag_attrs_of, raw_of, as_attr. cbn [map fst snd existsb orb].
  cbn [raw_attr].
  change (local_part (lit "k")) with (lit "k"). change (local_part (lit "v")) with (lit "v").
  destruct (str_eq_dec (lit "k") (lit "k")) as [_|N]; [|congruence].
  destruct (str_eq_dec (lit "k") (lit "v")) as [N|_]; [discriminate N|].
  destruct (str_eq_dec (lit "v") (lit "v")) as [_|N]; [|congruence].
  cbn [required fst snd] in *. now rewrite !quoted_norm by assumption.
Qed.

Definition start_event (d : changeset) : qevent := QStart (lit "changeset") (attrs_of (changeset_attrs d)).
Definition start_piece (d : changeset) : piece :=
  Piece [10] (start_event d) (utf8 (lit "<changeset" ++ flat_map attr_text (changeset_attrs d) ++ lit ">")).
Definition end_piece : piece := Piece [] (QEnd (lit "changeset")) (lit "</changeset>").

Lemma iso_valid t : iso_time t -> valid_str (iso_text t).
Proof. destruct t; cbn; tauto. Qed.

Lemma changeset_attrs_good d : dumpable d ->
  Forall (fun kv => good_key (fst kv) /\ valid_str (snd kv)) (changeset_attrs d).
Proof.
  intros (H1 & H2 & H3 & H4 & H5 & H6 & H7 & H8). unfold changeset_attrs, opt_attr.
  assert (G : forall k v, good_key k -> valid_str v -> good_key (fst (k, v)) /\ valid_str (snd (k, v))) by (intros; split; assumption).
  repeat (apply Forall_app; split);
  repeat match goal with
  | |- context [opt_map _ ?o] => destruct o; cbn [opt_map]
  | |- context [match ?o with Some _ => _ | None => _ end] => destruct o
  end; repeat (apply Forall_cons || apply Forall_nil); apply G;
  first [split; [reflexivity|discriminate]|apply show_int_valid|apply iso_valid; assumption|assumption|idtac].
  destruct (cs_open d); repeat constructor; unfold scalar; cbn; lia.
Qed.

Lemma changeset_attrs_names d : NoDup (map fst (map raw_of (changeset_attrs d))).
Proof.
  unfold changeset_attrs, opt_attr. rewrite map_map.
  destruct (cs_closed d), (cs_user d), (cs_uid d); cbn;
  repeat (constructor; [cbn; intros Hx; repeat destruct Hx as [Hx|Hx]; try discriminate Hx; exact Hx|]); constructor.
Qed.

Lemma start_piece_good d : dumpable d -> good_piece (start_piece d).
Proof.
  intros Hd. split; [split; cbn; lia|]. cbn [pc_event pc_markup start_piece]. unfold start_event, attrs_of.
  replace (utf8 (lit "<changeset" ++ flat_map attr_text (changeset_attrs d) ++ lit ">"))
    with (lit "<" ++ lit "changeset" ++ utf8 (flat_map attr_text (changeset_attrs d)) ++ [] ++ lit ">")
    by (rewrite !utf8_app; reflexivity).
  apply m_start; [good_lit|apply attrs_text; now apply changeset_attrs_good|apply changeset_attrs_names|constructor].
Qed.
Lemma end_piece_good : good_piece end_piece.
Proof. split; [split; exact (fun H => H)|]. exact (m_end (lit "changeset") [] ltac:(good_lit) (Forall_nil _)). Qed.

(** ** The parts of a dump *)

Lemma file_events ps : file ps = map QEv (events ps).
Proof.
  unfold file, events. induction ps as [|p ps IH]; [reflexivity|]. cbn [flat_map]. rewrite map_app, IH. f_equal.
  destruct p as [e|n a|n a body close]; cbn [render part_events map]; rewrite ?map_app; reflexivity.
Qed.

Definition dump_part (d : changeset) : list part :=
  [Noise QOther; CFull (lit "changeset") (attrs_of (changeset_attrs d)) (map tag_event (cs_tags d)) (lit "changeset")].
Definition dump_parts (ds : list changeset) : list part :=
  [Noise QOther; Noise (QStart (lit "osm") [])] ++ flat_map dump_part ds ++ [Noise QOther; Noise (QEnd (lit "osm"))].

Definition dump_pieces (d : changeset) : list piece := start_piece d :: map tag_piece (cs_tags d) ++ [end_piece].
Definition whole (ds : list changeset) : list piece :=
  [Piece [] QOther (lit "<?xml version='1.0' encoding='UTF-8'?>"); Piece [] (QStart (lit "osm") []) (lit "<osm>")]
  ++ flat_map dump_pieces ds ++ [Piece [10] (QEnd (lit "osm")) (lit "</osm>")].

Lemma decl_good : good_piece (Piece [] QOther (lit "<?xml version='1.0' encoding='UTF-8'?>")).
Proof.
  split; [split; exact (fun H => H)|].
  apply (m_pi (lit "xml version='1.0' encoding='UTF-8'")); [discriminate|discriminate|].
  intros a b E. set (l := lit "xml version='1.0' encoding='UTF-8'" ++ lit "?>") in E.
  assert (N : forall k, (k < 34)%nat -> nth k l 0 <> 63).
  { intros k Hk. do 34 (destruct k as [|k]; [discriminate|]). lia. }
  assert (Ea : nth (length a) l 0 = 63). { rewrite E, app_nth2, Nat.sub_diag by lia. reflexivity. }
  assert (La : (34 <= length a)%nat). { destruct (Nat.le_gt_cases 34 (length a)) as [H|H]; [exact H|]. now apply N in H. }
  assert (Ll : length l = (length a + (2 + length b))%nat). { rewrite E, !app_length. reflexivity. }
  change (length l) with 36%nat in Ll. destruct b; [reflexivity|]. cbn [length] in Ll. lia.
Qed.

Lemma whole_good ds : Forall dumpable ds -> Forall good_piece (whole ds).
Proof.
  intros H. unfold whole. constructor; [exact decl_good|].
  constructor; [split; [split; exact (fun H => H)|]; exact (m_start (lit "osm") [] [] [] ltac:(good_lit) no_attributes (NoDup_nil _) (Forall_nil _))|].
  apply Forall_app. split.
  - induction H as [|d ds Hd _ IH]; [constructor|]. cbn [flat_map]. apply Forall_app. split; [|exact IH].
    unfold dump_pieces. constructor; [now apply start_piece_good|]. apply Forall_app.
    split; [|constructor; [exact end_piece_good|constructor]].
    destruct Hd as (_ & _ & _ & _ & _ & _ & _ & Ht). apply Forall_map.
    eapply Forall_impl; [|exact Ht]. intros kv [H1 H2]. now apply tag_piece_good.
  - constructor; [|constructor]. split; [split; cbn; lia|].
    exact (m_end (lit "osm") [] ltac:(good_lit) (Forall_nil _)).
Qed.

Lemma whole_bytes ds : flat_map piece_bytes (whole ds) = dump ds.
Proof.
  unfold whole, dump, dump_text. rewrite !flat_map_app, !utf8_app.
  change (utf8 [10] ++ utf8 (lit "</osm>")) with (flat_map piece_bytes [Piece [10] (QEnd (lit "osm")) (lit "</osm>")]).
  refine (f_equal2 (@app Z) eq_refl (f_equal2 (@app Z) _ eq_refl)).
  induction ds as [|d ds IH]; [reflexivity|]. cbn [flat_map]. rewrite flat_map_app, IH, utf8_app. f_equal.
  unfold dump_pieces, changeset_text. cbn [flat_map]. rewrite flat_map_app. cbn [flat_map]. rewrite app_nil_r.
  change (10 :: lit "<changeset" ++ flat_map attr_text (changeset_attrs d) ++ lit ">" ++ flat_map tag_text (cs_tags d) ++ lit "</changeset>")
    with ([10] ++ lit "<changeset" ++ flat_map attr_text (changeset_attrs d) ++ lit ">" ++ flat_map tag_text (cs_tags d) ++ lit "</changeset>").
  unfold piece_bytes. cbn [pc_text pc_markup start_piece end_piece]. rewrite !utf8_app, <- !app_assoc.
  change (utf8 [10]) with [10]. change (utf8 (lit "</changeset>")) with (lit "</changeset>").
  do 4 f_equal. f_equal. induction (cs_tags d) as [|kv l IHl]; [reflexivity|].
  cbn [map flat_map]. rewrite utf8_app, IHl. reflexivity.
Qed.

Lemma tags_events l : flat_map piece_events (map tag_piece l) = map tag_event l.
Proof. induction l as [|kv l IH]; [reflexivity|]. cbn [map flat_map]. rewrite IH. reflexivity. Qed.

Lemma whole_events ds : flat_map piece_events (whole ds) = events (dump_parts ds).
Proof.
  unfold whole, dump_parts, events. rewrite !flat_map_app. f_equal. f_equal.
  induction ds as [|d ds IH]; [reflexivity|]. cbn [flat_map]. rewrite !flat_map_app, IH. f_equal.
  unfold dump_pieces. cbn [flat_map]. rewrite flat_map_app, tags_events. cbn. now rewrite app_nil_r.
Qed.

Lemma opened_tags st l : opened st (map tag_event l) = Some st.
Proof. induction l as [|kv l IH]; [reflexivity|]. cbn [map opened tag_event]. exact IH. Qed.

Lemma whole_opened ds : opened [] (events (dump_parts ds)) = Some [].
Proof.
  unfold dump_parts, events. rewrite !flat_map_app.
  change (flat_map part_events [Noise QOther; Noise (QStart (lit "osm") [])]) with [QOther; QStart (lit "osm") []].
  cbn [app opened]. rewrite opened_app.
  assert (E : opened [lit "osm"] (flat_map part_events (flat_map dump_part ds)) = Some [lit "osm"]).
  { induction ds as [|d ds IH]; [reflexivity|]. cbn [flat_map]. rewrite flat_map_app, opened_app.
    cbn [dump_part flat_map part_events app opened]. rewrite <- app_assoc, opened_app, opened_tags. cbn. exact IH. }
  rewrite E. reflexivity.
Qed.

Theorem dump_text_of ds : Forall dumpable ds -> text_of (events (dump_parts ds)) (dump ds).
Proof.
  intros H. exists (whole ds), []. rewrite !app_nil_r. split; [now apply whole_good|]. split; [split; exact (fun H => H)|].
  split; [now rewrite whole_bytes|]. split; [now rewrite whole_events|]. rewrite whole_opened. discriminate.
Qed.

(** ** What it stands for *)

Lemma distinct_attrs d : distinct (attrs_of (changeset_attrs d)).
Proof.
  unfold distinct, attrs_of, changeset_attrs, opt_attr. rewrite map_map.
  destruct (cs_closed d), (cs_user d), (cs_uid d); cbn;
  repeat (constructor; [cbn; intros Hx; repeat destruct Hx as [Hx|Hx]; try discriminate Hx; exact Hx|]); constructor.
Qed.

Lemma dump_wf ds : Forall wf_part (dump_parts ds).
Proof.
  unfold dump_parts. constructor; [exact I|]. constructor; [discriminate|]. apply Forall_app. split.
  - induction ds as [|d ds IH]; [constructor|]. cbn [flat_map]. apply Forall_app. split; [|exact IH].
    constructor; [exact I|]. constructor; [|constructor]. split; [reflexivity|]. split; [reflexivity|].
    split; [apply distinct_attrs|]. split.
    + apply Forall_map. apply Forall_forall. intros kv _. discriminate.
    + unfold tag_distinct, tag_elements. induction (cs_tags d) as [|kv l IHl]; [constructor|].
      cbn [map filter_map tag_event tag_attrs]. destruct (str_eq_dec (local_part (lit "tag")) (lit "tag")) as [_|N]; [|exfalso; apply N; reflexivity].
      constructor; [|exact IHl]. unfold distinct. cbn. constructor; [intros [Hx|[]]; discriminate Hx|]. constructor; [intros []|constructor].
  - constructor; [exact I|]. constructor; [discriminate|constructor].
Qed.

Lemma tags_value l : Forall (fun kv => valid_str (fst kv) /\ valid_str (snd kv)) l ->
  sequence (map (tag_value q_norm) (tag_elements (map tag_event l))) = Some l.
Proof.
  unfold tag_elements. induction 1 as [|kv l [H1 H2] _ IH]; [reflexivity|].
  cbn [map filter_map tag_event tag_attrs]. destruct (str_eq_dec (local_part (lit "tag")) (lit "tag")) as [_|N]; [|exfalso; apply N; reflexivity].
  cbn [map sequence]. rewrite tag_event_value by assumption. now rewrite IH.
Qed.

(** The raw value of an attribute of a dump. *)
Lemma raw_attr_of l k : Forall (fun kv => ~ In 58 (lit (fst kv))) l ->
  raw_attr (attrs_of l) k = opt_map (fun v => utf8 (quoted v)) (option_map snd (find (fun kv => if str_eq_dec (lit (fst kv)) (lit k) then true else false) l)).
Proof.
  unfold attrs_of. induction 1 as [|[k' v] l H _ IH]; [reflexivity|]. cbn [map raw_of as_attr fst snd raw_attr find].
  unfold local_part. destruct (in_dec Z.eq_dec 58 (lit k')) as [Hi|_]; [now elim H|].
  destruct (str_eq_dec (lit k') (lit k)); [reflexivity|exact IH].
Qed.

Lemma changeset_attrs_local d : Forall (fun kv => ~ In 58 (lit (fst kv))) (changeset_attrs d).
Proof.
  unfold changeset_attrs, opt_attr. destruct (cs_closed d), (cs_user d), (cs_uid d); cbn [opt_map app];
  repeat (apply Forall_cons || apply Forall_nil); cbn; lia.
Qed.

Lemma show_int_uint n : 0 <= n -> show_int n = show_uint n.
Proof. intros H. unfold show_int. now replace (n <? 0) with false by lia. Qed.

Lemma no_error l : existsb (fun a => match a with AErr => true | _ => false end) (attrs_of l) = false.
Proof. unfold attrs_of. rewrite map_map. induction l as [|kv l IH]; [reflexivity|exact IH]. Qed.

Lemma bool_quoted (b : bool) : utf8 (quoted (if b then lit "true" else lit "false")) = if b then lit "true" else lit "false".
Proof. destruct b; reflexivity. Qed.

Lemma dump_value d : dumpable d ->
  changeset_value q_norm (attrs_of (changeset_attrs d)) (map tag_event (cs_tags d)) = Some d.
Proof.
  intros (H1 & H2 & H3 & H4 & H5 & H6 & H7 & H8). unfold changeset_value. rewrite no_error, tags_value by exact H8.
  rewrite !raw_attr_of by apply changeset_attrs_local.
  destruct d as [id created closed open uid user tg nc cc]. cbn [cs_id cs_created cs_closed cs_open cs_uid cs_user cs_tags cs_num_changes cs_comments_count] in *.
  assert (I1 : forall k l, in_u32 k -> value q_norm parse_u32 (utf8 (quoted (show_int k))) = Some l <-> l = k).
  { intros k l Hk. unfold value. rewrite quoted_norm by apply show_int_valid. cbn [opt_bind].
    rewrite show_int_uint by (unfold in_u32 in Hk; lia). rewrite parse_show_u32 by exact Hk. split; [now intros [= ->]|now intros ->]. }
  assert (I2 : forall k l, in_u64 k -> value q_norm parse_u64 (utf8 (quoted (show_int k))) = Some l <-> l = k).
  { intros k l Hk. unfold value. rewrite quoted_norm by apply show_int_valid. cbn [opt_bind].
    rewrite show_int_uint by (unfold in_u64 in Hk; lia). rewrite parse_show_u64 by exact Hk. split; [now intros [= ->]|now intros ->]. }
  assert (I3 : forall k l, in_i64 k -> value q_norm parse_i64 (utf8 (quoted (show_int k))) = Some l <-> l = k).
  { intros k l Hk. unfold value. rewrite quoted_norm by apply show_int_valid. cbn [opt_bind].
    rewrite parse_show_i64 by exact Hk. split; [now intros [= ->]|now intros ->]. }
  destruct created as [created|?]; [|contradiction]. cbn in H2.
  assert (Hc : closed = None \/ exists s, closed = Some (ISOString s) /\ valid_str s).
  { destruct closed as [[s|?]|]; [right; now exists s|contradiction|now left]. }
  unfold changeset_attrs, opt_attr. cbn [cs_id cs_created cs_closed cs_open cs_uid cs_user cs_tags cs_num_changes cs_comments_count iso_text].
  destruct Hc as [->|(s & -> & Hs)], uid as [u|], user as [us|]; cbn [opt_map app iso_text];
  cbn -[q_norm quoted utf8 value bool_text show_int parse_u32 parse_u64 parse_i64];
  rewrite ?bool_quoted, ?quoted_norm by assumption;
  rewrite (proj2 (I1 id id H1) eq_refl), (proj2 (I2 nc nc H6) eq_refl), (proj2 (I2 cc cc H7) eq_refl);
  try rewrite (proj2 (I3 u u H4) eq_refl); destruct open; reflexivity.
Qed.

Lemma dump_values ds : Forall dumpable ds -> file_value q_norm (dump_parts ds) = map Some ds.
Proof.
  intros H. unfold file_value, dump_parts. cbn [app filter_map part_value].
  assert (E : forall tl, filter_map (part_value q_norm) (flat_map dump_part ds ++ tl) = map Some ds ++ filter_map (part_value q_norm) tl).
  { intros tl. induction H as [|d ds Hd _ IH]; [reflexivity|]. cbn [flat_map dump_part app filter_map part_value map].
    rewrite dump_value by exact Hd. cbn [app]. f_equal. exact IH. }
  rewrite E. cbn. apply app_nil_r.
Qed.
